From Coq Require Import ZArith String List Bool Lia.
From Verif.Base Require Import Result Dict.
From Verif.Model Require Import ClientRequest.
Import ListNotations.
Local Open Scope string_scope.
Local Open Scope Z_scope.

Section P.
Variables Body Tree Payload : Type.
Notation oracles := (oracles Body Tree Payload).
Notation effect := (effect Body Tree Payload).

Definition points : list string :=
  ["before_send_xml"; "after_receive_xml"; "before_schema_validation"; "before_parse_xml"; "after_parse_xml"].

(** A registry after the registrations [adds], in this order. *)
Definition registered (adds : list (string * nat)) (r : registry) : Prop :=
  foldM (fun r '(p, h) => add_hook r p h) adds client_hooks_initial = Ok r.

Definition hooks_for (adds : list (string * nat)) (p : string) : list nat :=
  map snd (filter (fun a => fst a =? p)%string adds).

Lemma add_hook_get r p h r' : add_hook r p h = Ok r' ->
  forall q hs, get String.eqb q r = Some hs ->
    get String.eqb q r' = Some (hs ++ (if (p =? q)%string then [h] else []))%list.
Proof.
  unfold add_hook. destruct (get String.eqb p r) as [hs'|] eqn:E; [|discriminate].
  intros H; injection H as <-. intros q hs G.
  destruct (String.eqb_spec p q) as [->|NE].
  - rewrite get_set_same by (intros; apply String.eqb_eq). congruence.
  - rewrite get_set_other by (try (intros; apply String.eqb_eq); congruence). now rewrite app_nil_r.
Qed.

Lemma registered_get adds r : registered adds r -> forall p, In p points ->
  get String.eqb p r = Some (hooks_for adds p).
Proof.
  unfold registered. intros H p P.
  assert (G0 : get String.eqb p client_hooks_initial = Some []).
  { simpl in P. repeat (destruct P as [<-|P]; [reflexivity|]). contradiction. }
  assert (Gen : forall adds r0 hs, get String.eqb p r0 = Some hs ->
     foldM (fun r '(p, h) => add_hook r p h) adds r0 = Ok r -> get String.eqb p r = Some (hs ++ hooks_for adds p)%list).
  { clear. induction adds as [|[q h] adds IH]; intros r0 hs G H; simpl in H.
    - injection H as <-. unfold hooks_for; simpl. now rewrite app_nil_r.
    - destruct (add_hook r0 q h) as [r1|] eqn:E; simpl in H; [|discriminate].
      specialize (IH r1 _ (add_hook_get _ _ _ _ E p hs G) H). rewrite IH. f_equal. rewrite <- app_assoc. f_equal.
      unfold hooks_for; simpl. destruct (String.eqb_spec q p); reflexivity. }
  now apply (Gen adds _ [] G0 H).
Qed.

Lemma run_hooks_map (o : oracles) p arg hs : run_hooks _ _ _ o p arg hs = map (fun h => EHook _ _ _ p h arg) hs.
Proof. induction hs as [|h hs IH]; simpl; [reflexivity|]. destruct (behave _ _ _ o h arg); now rewrite IH. Qed.

Lemma execute_registered (o : oracles) adds r p arg : registered adds r -> In p points ->
  execute_hooks _ _ _ o r p arg = (map (fun h => EHook _ _ _ p h arg) (hooks_for adds p), Ok tt).
Proof. intros R P. unfold execute_hooks. rewrite (registered_get _ _ R p P). now rewrite run_hooks_map. Qed.

(** _perform_request with the monad and the hook registry unfolded: [hk p a] is
    what the hooks at point [p] leave in the trace. *)
Definition request_nf (o : oracles) (hk : string -> hook_arg Body Payload -> list effect) (signed : bool) (m : Body)
  : list effect * result (reply Payload) :=
  (if decodes _ _ _ o m then
    let t1 := hk "before_send_xml" (HABody _ _ m) ++ [EPost _ _ _ m] in
    match post _ _ _ o m with
    | Raise _ => (t1, Ok (RFailed _))
    | Ok (status, c) =>
      if decodes _ _ _ o c then
        let t2 := t1 ++ hk "after_receive_xml" (HABody _ _ c) in
        if status =? 200 then
          if body_empty _ _ _ o c then (t2, Ok (RNothing _)) else
          let t3 := t2 ++ hk "before_schema_validation" (HABody _ _ c) ++ [ESchema _ _ _ c] in
          match validate_schema _ _ _ o c with
          | Raise _ => (t3, Ok (RFailed _))
          | Ok tree =>
            let t4 := t3 ++ (if signed then [ESignature _ _ _ tree] else []) in
            match (if signed then validate_signature _ _ _ o tree else Ok tt) with
            | Raise _ => (t4, Ok (RFailed _))
            | Ok _ =>
              let t5 := t4 ++ hk "before_parse_xml" (HABody _ _ c) ++ [EParse _ _ _ c] in
              match parse _ _ _ o c with
              | Raise _ => (t5, Ok (RFailed _))
              | Ok (ty, pl) =>
                (t5 ++ hk "after_parse_xml" (HAMessage _ _ ty pl),
                 match response_code _ _ _ o pl with
                 | Some code => if code =? 200 then Ok (RMessage _ ty pl)
                                else if has_description _ _ _ o pl then Ok (RMessage _ ty pl) else Raise KeyError
                 | None => Ok (RMessage _ ty pl)
                 end)
              end
            end
          end
        else (t2, Ok (RFailed _))
      else (t1, Ok (RFailed _))
    end
  else ([], Ok (RFailed _)))%list.

Lemma perform_request_nf (o : oracles) adds r signed m : registered adds r ->
  perform_request _ _ _ o r signed m
  = request_nf o (fun p arg => map (fun h => EHook _ _ _ p h arg) (hooks_for adds p)) signed m.
Proof.
  intros R.
  pose proof (fun arg => execute_registered o adds r "before_send_xml" arg R ltac:(simpl; tauto)) as H1.
  pose proof (fun arg => execute_registered o adds r "after_receive_xml" arg R ltac:(simpl; tauto)) as H2.
  pose proof (fun arg => execute_registered o adds r "before_schema_validation" arg R ltac:(simpl; tauto)) as H3.
  pose proof (fun arg => execute_registered o adds r "before_parse_xml" arg R ltac:(simpl; tauto)) as H4.
  pose proof (fun arg => execute_registered o adds r "after_parse_xml" arg R ltac:(simpl; tauto)) as H5.
  unfold perform_request, ensure_str, request_nf.
  destruct (decodes _ _ _ o m); cbn [cbind catch_all ret lift tell app]; [|reflexivity].
  rewrite H1; cbn [cbind app]. destruct (post _ _ _ o m) as [[st c]|]; cbn [cbind catch_all ret lift tell app]; [|now rewrite ?app_nil_r].
  destruct (decodes _ _ _ o c) eqn:D; cbn [cbind catch_all ret lift tell app]; [|now rewrite ?app_nil_r].
  rewrite H2; cbn [cbind app].
  destruct (st =? 200); cbn [cbind catch_all ret lift tell app]; [|now rewrite ?app_nil_r, <- ?app_assoc].
  destruct (body_empty _ _ _ o c); cbn [cbind catch_all ret lift tell app]; [now rewrite ?app_nil_r, <- ?app_assoc|].
  rewrite D; cbn [cbind ret app]. rewrite H3; cbn [cbind app].
  destruct (validate_schema _ _ _ o c) as [tree|]; cbn [cbind catch_all ret lift tell app]; [|now rewrite ?app_nil_r, <- ?app_assoc].
  destruct signed; cbn [cbind catch_all ret lift tell app];
    [destruct (validate_signature _ _ _ o tree) as [[]|]; cbn [cbind catch_all ret lift tell app]; [|now rewrite ?app_nil_r, <- ?app_assoc]|];
    rewrite ?D; cbn [cbind ret app]; rewrite H4; cbn [cbind app];
    destruct (parse _ _ _ o c) as [[ty pl]|]; cbn [cbind catch_all ret lift tell app]; try now rewrite ?app_nil_r, <- ?app_assoc.
  all: rewrite H5; cbn [cbind catch_all ret lift tell app];
    destruct (response_code _ _ _ o pl) as [code|]; [destruct (code =? 200); [|destruct (has_description _ _ _ o pl)]|];
    cbn [ret lift]; rewrite ?app_nil_r; repeat (rewrite <- ?app_assoc; cbn [app]); reflexivity.
Qed.
End P.
