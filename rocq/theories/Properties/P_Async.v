(** C60 hooks, C61 gathering results, C62 the VEN's requests. *)
From Coq Require Import ZArith String List Bool Lia Permutation.
From Verif.Base Require Import Result Dict ListExtra.
From Verif.Model Require Import Async ClientRequest.
From Verif.Proofs Require Import AsyncProofs ClientRequestProofs.
Import ListNotations.
Local Open Scope string_scope.
Local Open Scope Z_scope.

(** ** C61 *)
(** How an item ends: a plain value is itself, a coroutine has an outcome. *)
Definition ends {A} (i : item A) (o : result A) : Prop :=
  match i with Plain a => o = Ok a | Coro r => o = r end.

(** The event loop finishes every coroutine once, in any order. *)
Definition fair {A} (rs : list (item A)) (order : list nat) : Prop := Permutation order (seq 0 (length rs)).

Theorem C61_results_keep_order :
  forall A (rs : list (item A)) order values, fair rs order ->
    Forall2 (fun i a => ends i (Ok a)) rs values ->
    gather_if_required (Some rs) order = Some (Ok (Some values)).
Proof.
  intros A rs order values F H.
  assert (M : Forall2 (fun i a => await_if_required i = Ok a) rs values).
  { eapply Forall2_impl; [|exact H]. intros i a E. destruct i; simpl in *; congruence. }
  assert (MM : mapM await_if_required rs = Ok values) by (now apply mapM_ok).
  unfold gather_if_required. destruct rs as [|r0 rs0] eqn:Ers; [now inversion H|].
  rewrite <- Ers in *. replace (Nat.ltb 0 (length rs)) with true by (subst; reflexivity).
  destruct (existsb iscoroutine rs) eqn:EX; cbn [negb].
  - destruct (forallb iscoroutine rs) eqn:AL.
    + unfold asyncio_gather.
      assert (L : length order = length (map await_if_required rs)).
      { rewrite map_length, (Permutation_length F), seq_length. reflexivity. }
      rewrite gather_ok'.
      * simpl. assert (X : mapM (fun c => c) (map await_if_required rs) = Ok values).
        { apply mapM_ok. clear -M. induction M; simpl; constructor; auto. }
        now rewrite X.
      * simpl. exact L.
      * intros ->. subst rs. discriminate.
      * destruct (first_raise (map await_if_required rs) order) as [e|] eqn:FR; [|reflexivity].
        apply first_raise_some in FR as (o1 & i & o2 & _ & E & _).
        rewrite nth_error_map in E. destruct (nth_error rs i) as [x|] eqn:Ex; [|discriminate]. simpl in E. injection E as E.
        apply nth_error_In in Ex. clear -M Ex E. induction M; [contradiction|]. destruct Ex as [->|Ex]; [congruence|auto].
    + now rewrite MM.
  - f_equal. f_equal. f_equal. clear -H EX. induction H as [|i a rs vs E H IH]; [reflexivity|].
    simpl in *. destruct i; simpl in *; [|discriminate]. injection E as ->. now rewrite IH.
Qed.
Print Assumptions C61_results_keep_order.

(** When something raises, the exception of the first coroutine that raised
    comes out: first to finish when all are coroutines, first in the list when
    the list is mixed. *)
Theorem C61_failures :
  forall A (rs : list (item A)) order, fair rs order -> Exists (fun i => exists e, ends i (Raise e)) rs ->
    exists e k i, gather_if_required (Some rs) order = Some (Raise e) /\ nth_error rs k = Some i /\ ends i (Raise e) /\
      if forallb iscoroutine rs
      then exists o1 o2, order = (o1 ++ k :: o2)%list /\ forall j i' e', In j o1 -> nth_error rs j = Some i' -> ~ ends i' (Raise e')
      else forall j i' e', (j < k)%nat -> nth_error rs j = Some i' -> ~ ends i' (Raise e').
Proof.
  intros A rs order F EX.
  assert (C : existsb iscoroutine rs = true).
  { apply Exists_exists in EX as (i & I & e & E). apply existsb_exists. exists i. split; [assumption|]. destruct i; [discriminate E|reflexivity]. }
  assert (NE : Nat.ltb 0 (length rs) = true) by (destruct rs; [inversion EX|reflexivity]).
  assert (AE : forall (i : item A) e, await_if_required i = Raise e <-> ends i (Raise e)).
  { intros i e. destruct i; simpl; split; congruence. }
  unfold gather_if_required. rewrite NE, C. cbn [negb].
  destruct (forallb iscoroutine rs) eqn:AL.
  - destruct (first_raise (map await_if_required rs) order) as [e|] eqn:FR.
    + assert (L : (0 + length order <= length (map await_if_required rs))%nat).
      { rewrite map_length, (Permutation_length F), seq_length. simpl. lia. }
      pose proof (gather_raise' _ _ _ _ L FR) as G. unfold asyncio_gather. rewrite G. simpl.
      apply first_raise_some in FR as (o1 & k & o2 & -> & E & P).
      rewrite nth_error_map in E. destruct (nth_error rs k) as [x|] eqn:Ex; [|discriminate]. simpl in E. injection E as E.
      exists e, k, x. split; [reflexivity|]. split; [assumption|]. split; [now apply AE|].
      exists o1, o2. split; [reflexivity|]. intros j i' e' J N B. apply AE in B. apply (P j J e').
      rewrite nth_error_map, N. simpl. now rewrite B.
    + exfalso. apply Exists_exists in EX as (i & I & e & E). apply In_nth_error in I as [k K].
      apply (first_raise_none _ _ FR k e).
      * eapply Permutation_in; [symmetry; exact F|]. apply in_seq. split; [lia|]. simpl. apply nth_error_Some. congruence.
      * rewrite nth_error_map, K. simpl. f_equal. now apply AE.
  - clear C NE F AL. induction rs as [|i rs IH]; [inversion EX|]. simpl.
    destruct (await_if_required i) as [a|e] eqn:Ei; simpl.
    + assert (EX' : Exists (fun i => exists e, ends i (Raise e)) rs).
      { inversion EX as [? ? [e E]|]; subst; [|assumption]. apply AE in E. congruence. }
      destruct (IH EX') as (e & k & x & G & N & E & P). destruct (mapM await_if_required rs); [discriminate|]. simpl.
      injection G as ->. exists e, (S k), x. repeat split; auto.
      intros [|j] i' e' J N'; simpl in N'.
      * injection N' as <-. intros B. apply AE in B. congruence.
      * apply P with (j := j); [lia|assumption].
    + exists e, 0%nat, i. repeat split; [now apply AE|]. intros; lia.
Qed.
Print Assumptions C61_failures.

(** Without coroutines, everything comes back as it is; so does None. *)
Theorem C61_plain : forall A order,
  gather_if_required (A := A) None order = Some (Ok None) /\
  forall (rs : list (item A)) l, Forall2 (fun i a => i = Plain a) rs l -> gather_if_required (Some rs) order = Some (Ok (Some l)).
Proof.
  intros A order. split; [reflexivity|]. intros rs l F. unfold gather_if_required. destruct rs as [|i rs]; [inversion F; reflexivity|].
  change (Nat.ltb 0 (length (i :: rs))) with true. cbv iota.
  assert (N : existsb iscoroutine (i :: rs) = false) by (clear - F; induction F as [|? a ? ? -> F IH]; [reflexivity|]; exact IH). rewrite N. cbn [negb].
  do 3 f_equal. clear N. induction F as [|? a ? ? -> F IH]; [reflexivity|]. cbn [flat_map app]. now rewrite IH.
Qed.
Print Assumptions C61_plain.
Example C61_example_plain : Forall2 (fun i a => i = Plain a) [Plain 1; Plain 2] [1; 2].
Proof. repeat constructor. Qed.

Example C61_example :
  let rs := [Coro (Ok 10); Coro (Ok 20); Coro (Ok 30)] in
  fair rs [2; 0; 1]%nat /\ gather_if_required (Some rs) [2; 0; 1]%nat = Some (Ok (Some [10; 20; 30])) /\
  gather_if_required (Some [Plain 1; Coro (Ok 2); Plain 3]) [] = Some (Ok (Some [1; 2; 3])) /\
  gather_if_required (Some [Coro (Raise KeyError); Coro (Ok 1); Coro (Raise ValueError)]) [2; 1; 0]%nat = Some (Raise ValueError).
Proof.
  repeat split. unfold fair; simpl.
  apply perm_trans with [0; 2; 1]%nat; [apply perm_swap|]. apply perm_skip, perm_swap.
Qed.

(** ** C60, VEN side *)
Section Client.
Variables Body Tree Payload : Type.
Notation oracles := (oracles Body Tree Payload).
Notation effect := (effect Body Tree Payload).

Definition is_hook (e : effect) : bool := match e with EHook _ _ _ _ _ _ => true | _ => false end.
Definition is_hook_at (p : string) (e : effect) : bool :=
  match e with EHook _ _ _ q _ _ => (p =? q)%string | _ => false end.

(** The same environment in which no hook does anything. *)
Definition silent (o : oracles) : oracles :=
  {| behave := fun _ _ => Ok tt; post := post _ _ _ o; body_empty := body_empty _ _ _ o; decodes := decodes _ _ _ o;
     validate_schema := validate_schema _ _ _ o; validate_signature := validate_signature _ _ _ o; parse := parse _ _ _ o;
     response_code := response_code _ _ _ o; has_description := has_description _ _ _ o |}.

Lemma filter_hooks_none (p : string) arg hs :
  filter (fun e => negb (is_hook e)) (map (fun h => EHook Body Tree Payload p h arg) hs) = [].
Proof. induction hs; simpl; auto. Qed.

Lemma filter_hooks_at (p q : string) arg hs :
  filter (is_hook_at p) (map (fun h => EHook Body Tree Payload q h arg) hs)
  = if (p =? q)%string then map (fun h => EHook Body Tree Payload q h arg) hs else [].
Proof. induction hs; simpl; destruct (p =? q)%string; simpl; congruence || auto. Qed.

Lemma initial_registered : registered [] client_hooks_initial.
Proof. reflexivity. Qed.

(** All paths through _perform_request. *)
Ltac paths R :=
  rewrite (perform_request_nf _ _ _ _ _ _ _ _ R); unfold request_nf; cbv zeta;
  repeat match goal with
      | |- context [if decodes _ _ _ ?o ?b then _ else _] => destruct (decodes _ _ _ o b) eqn:?
      | |- context [match post _ _ _ ?o ?m with _ => _ end] => destruct (post _ _ _ o m) as [[? ?]|?] eqn:?
      | |- context [if ?s =? 200 then _ else _] => destruct (s =? 200) eqn:?
      | |- context [if body_empty _ _ _ ?o ?c then _ else _] => destruct (body_empty _ _ _ o c) eqn:?
      | |- context [match validate_schema _ _ _ ?o ?c with _ => _ end] => destruct (validate_schema _ _ _ o c) as [?|?] eqn:?
      | |- context [match validate_signature _ _ _ ?o ?c with _ => _ end] => destruct (validate_signature _ _ _ o c) as [[]|?] eqn:?
      | |- context [match parse _ _ _ ?o ?c with _ => _ end] => destruct (parse _ _ _ o c) as [[? ?]|?] eqn:?
      | |- context [match response_code _ _ _ ?o ?c with _ => _ end] => destruct (response_code _ _ _ o c) as [?|] eqn:?
      | |- context [if has_description _ _ _ ?o ?c then _ else _] => destruct (has_description _ _ _ o c) eqn:?
      end; cbn [fst snd].

Theorem C60_client_hooks_do_not_matter :
  forall (o : oracles) adds r signed m, registered adds r ->
    let with_hooks := perform_request _ _ _ o r signed m in
    let without := perform_request _ _ _ (silent o) client_hooks_initial signed m in
    snd with_hooks = snd without /\ filter (fun e => negb (is_hook e)) (fst with_hooks) = fst without.
Proof.
  intros o adds r signed m R. cbv zeta. pose proof initial_registered as R0.
  rewrite (perform_request_nf _ _ _ (silent o) _ _ signed m R0). unfold request_nf. cbv zeta.
  change (body_empty _ _ _ (silent o)) with (body_empty _ _ _ o). change (post _ _ _ (silent o)) with (post _ _ _ o).
  change (decodes _ _ _ (silent o)) with (decodes _ _ _ o). change (parse _ _ _ (silent o)) with (parse _ _ _ o).
  change (validate_schema _ _ _ (silent o)) with (validate_schema _ _ _ o).
  change (validate_signature _ _ _ (silent o)) with (validate_signature _ _ _ o).
  change (response_code _ _ _ (silent o)) with (response_code _ _ _ o).
  change (has_description _ _ _ (silent o)) with (has_description _ _ _ o).
  destruct signed; paths R; cbn [fst snd hooks_for map filter app];
    repeat (rewrite ?filter_app, ?filter_hooks_none; cbn [filter negb is_hook app]); auto.
Qed.

Ltac split_hooks :=
  repeat (rewrite ?filter_app, ?filter_hooks_at; cbn [filter is_hook_at app String.eqb Ascii.eqb Bool.eqb]).

(** Which effect of the request can only come after which hooks. *)
Definition after_point (p : string) (e : effect) : Prop :=
  match e with
  | EHook _ _ _ _ _ _ => False
  | EPost _ _ _ _ => p = "before_send_xml"
  | ESchema _ _ _ _ => In p ["before_send_xml"; "after_receive_xml"; "before_schema_validation"]
  | ESignature _ _ _ _ => In p ["before_send_xml"; "after_receive_xml"; "before_schema_validation"]
  | EParse _ _ _ _ => In p ["before_send_xml"; "after_receive_xml"; "before_schema_validation"; "before_parse_xml"]
  end.

Theorem C60_client_hooks_in_order :
  forall (o : oracles) adds r signed m p, registered adds r -> In p points ->
    let t := fst (perform_request _ _ _ o r signed m) in
    let ran := exists arg, filter (is_hook_at p) t = map (fun h => EHook _ _ _ p h arg) (hooks_for adds p) in
    (filter (is_hook_at p) t = [] \/ ran) /\
    (forall e, In e t -> after_point p e -> ran) /\
    (forall ty pl, snd (perform_request _ _ _ o r signed m) = Ok (RMessage _ ty pl) -> ran).
Proof.
  intros o adds r signed m p R P. cbv zeta.
  rewrite (perform_request_nf _ _ _ _ _ _ _ _ R).
  set (hk := fun (p : string) arg => map (fun h => EHook Body Tree Payload p h arg) (hooks_for adds p)).
  change (exists arg, filter (is_hook_at p) (fst (request_nf _ _ _ o hk signed m)) = map (fun h => EHook _ _ _ p h arg) (hooks_for adds p))
    with (exists arg, filter (is_hook_at p) (fst (request_nf _ _ _ o hk signed m)) = hk p arg).
  assert (F : forall q a, filter (is_hook_at p) (hk q a) = if (p =? q)%string then hk q a else []) by (intros; apply filter_hooks_at).
  assert (NH : forall q a e, In e (hk q a) -> after_point p e -> False).
  { intros q arg e I A. apply in_map_iff in I as (h & <- & _). exact A. }
  clearbody hk. clear R.
  pose proof (F "before_send_xml") as F1. pose proof (F "after_receive_xml") as F2.
  pose proof (F "before_schema_validation") as F3. pose proof (F "before_parse_xml") as F4. pose proof (F "after_parse_xml") as F5.
  clear F.
  simpl in P; repeat (destruct P as [<-|P]; [|try contradiction]);
    cbn [String.eqb Ascii.eqb Bool.eqb] in F1, F2, F3, F4, F5;
    unfold request_nf; cbv zeta;
    repeat match goal with
      | |- context [if decodes _ _ _ ?o ?b then _ else _] => destruct (decodes _ _ _ o b)
      | |- context [match post _ _ _ ?o ?m with _ => _ end] => destruct (post _ _ _ o m) as [[? ?]|?]
      | |- context [if ?s =? 200 then _ else _] => destruct (s =? 200)
      | |- context [if body_empty _ _ _ ?o ?c then _ else _] => destruct (body_empty _ _ _ o c)
      | |- context [match validate_schema _ _ _ ?o ?c with _ => _ end] => destruct (validate_schema _ _ _ o c) as [?|?]
      | |- context [if signed then _ else _] => destruct signed
      | |- context [match validate_signature _ _ _ ?o ?c with _ => _ end] => destruct (validate_signature _ _ _ o c) as [[]|?]
      | |- context [match parse _ _ _ ?o ?c with _ => _ end] => destruct (parse _ _ _ o c) as [[? ?]|?]
      end; cbn [fst snd];
    repeat (rewrite ?filter_app, ?F1, ?F2, ?F3, ?F4, ?F5; cbn [filter is_hook_at app]); rewrite ?app_nil_r;
    (split; [first [left; reflexivity | right; eexists; reflexivity]|]);
    (split; [|intros ty pl Eq; first [discriminate Eq | eexists; reflexivity]]);
    intros ef I A; first [eexists; reflexivity|
        exfalso; repeat (first [rewrite in_app_iff in I | progress cbn [In] in I]);
        repeat match goal with H : _ \/ _ |- _ => destruct H as [H|H] end;
        first [contradiction | eapply NH; eassumption
              | subst ef; simpl in A; repeat (destruct A as [A|A]; [discriminate A|]); first [contradiction|discriminate A]]].
Qed.

(** ** C62: what _perform_request returns *)
Theorem C62_only_valid_messages_are_accepted :
  forall (o : oracles) adds r signed m ty pl, registered adds r ->
    (snd (perform_request _ _ _ o r signed m) = Ok (RMessage _ ty pl) <->
     exists content tree,
       decodes _ _ _ o m = true /\ post _ _ _ o m = Ok (200, content) /\ decodes _ _ _ o content = true /\
       body_empty _ _ _ o content = false /\
       validate_schema _ _ _ o content = Ok tree /\ (signed = true -> validate_signature _ _ _ o tree = Ok tt) /\
       parse _ _ _ o content = Ok (ty, pl) /\
       (forall c, response_code _ _ _ o pl = Some c -> c <> 200 -> has_description _ _ _ o pl = true)).
Proof.
  intros o adds r signed m ty pl R. split.
  - destruct signed; paths R; intros E; try discriminate E; injection E as <- <-;
      repeat match goal with H : (_ =? 200) = true |- _ => apply Z.eqb_eq in H; subst | H : (_ =? 200) = false |- _ => apply Z.eqb_neq in H
             | u : unit |- _ => destruct u end;
      do 2 eexists; repeat split; eauto; try discriminate; intros; congruence.
  - intros (content & tree & D1 & P & D2 & BE & S & G & PA & RC).
    rewrite (perform_request_nf _ _ _ _ _ _ _ _ R). unfold request_nf. rewrite D1, P, D2, BE, S.
    assert (X : (if signed then validate_signature _ _ _ o tree else Ok tt) = Ok tt) by (destruct signed; auto).
    cbv zeta. change (200 =? 200) with true. cbv iota beta. rewrite X, PA. cbn [snd].
    destruct (response_code _ _ _ o pl) as [c|]; [|reflexivity].
    destruct (Z.eqb_spec c 200) as [E|E]; [reflexivity|]. now rewrite (RC c eq_refl E).
Qed.

(** The full claim: a request always ends in a message or in the failure value
    that callers unpack, never in an exception or in something else. *)
Definition C62_full (o : oracles) : Prop :=
  forall adds r signed m, registered adds r ->
    exists t, snd (perform_request _ _ _ o r signed m) = Ok t /\ t <> RNothing _.

Theorem C62_failures_are_contained_partial :
  forall (o : oracles) adds r signed m, registered adds r ->
    (forall x, snd (perform_request _ _ _ o r signed m) = Raise x ->
       x = KeyError /\ exists content ty pl c, post _ _ _ o m = Ok (200, content) /\ parse _ _ _ o content = Ok (ty, pl) /\
         response_code _ _ _ o pl = Some c /\ c <> 200 /\ has_description _ _ _ o pl = false) /\
    (snd (perform_request _ _ _ o r signed m) = Ok (RNothing _) <->
       exists content, decodes _ _ _ o m = true /\ post _ _ _ o m = Ok (200, content) /\ decodes _ _ _ o content = true /\ body_empty _ _ _ o content = true).
Proof.
  intros o adds r signed m R. split; [|split].
  - intros x. destruct signed; paths R; intros E; try discriminate E; injection E as <-; split; try reflexivity;
      repeat match goal with H : (_ =? 200) = true |- _ => apply Z.eqb_eq in H; subst | H : (_ =? 200) = false |- _ => apply Z.eqb_neq in H end;
      do 4 eexists; repeat split; eauto.
  - destruct signed; paths R; intros E; try discriminate E;
      repeat match goal with H : (_ =? 200) = true |- _ => apply Z.eqb_eq in H; subst end; eexists; repeat split; eauto.
  - intros (content & D1 & P & D2 & BE). rewrite (perform_request_nf _ _ _ _ _ _ _ _ R). unfold request_nf. now rewrite D1, P, D2, BE.
Qed.
End Client.
Print Assumptions C60_client_hooks_do_not_matter.
Print Assumptions C60_client_hooks_in_order.
Print Assumptions C62_only_valid_messages_are_accepted.
Print Assumptions C62_failures_are_contained_partial.

(** A VTN for the examples: bodies, trees and payloads are strings. *)
Definition demo (answer : Z * string) (sig_ok : bool) : oracles string string string :=
  {| behave := fun h _ => if Nat.eqb h 1 then Raise ValueError else Ok tt;
     post := fun _ => Ok answer; body_empty := fun b => (b =? "")%string; decodes := fun _ => true;
     validate_schema := fun b => if (b =? "garbage")%string then Raise XMLSyntaxError else Ok b;
     validate_signature := fun _ => if sig_ok then Ok tt else Raise InvalidSignature;
     parse := fun b => Ok ("oadrResponse", b);
     response_code := fun b => Some (if (b =? "refused")%string then 452 else 200);
     has_description := fun _ => false |}.

Theorem C62_contained_refuted : ~ (forall o : oracles string string string, C62_full _ _ _ o).
Proof.
  intros H. destruct (H (demo (200, "") true) [] client_hooks_initial false "m" eq_refl) as (t & E & N).
  vm_compute in E. congruence.
Qed.
Print Assumptions C62_contained_refuted.

Example C60_C62_example :
  let adds := [("before_send_xml", 1%nat); ("after_parse_xml", 7%nat); ("before_send_xml", 2%nat)] in
  exists r, registered adds r /\ In "before_send_xml" points /\
    snd (perform_request _ _ _ (demo (200, "hello") true) r true "m") = Ok (RMessage _ "oadrResponse" "hello") /\
    filter (is_hook_at _ _ _ "before_send_xml") (fst (perform_request _ _ _ (demo (200, "hello") true) r true "m"))
      = [EHook _ _ _ "before_send_xml" 1 (HABody _ _ "m"); EHook _ _ _ "before_send_xml" 2 (HABody _ _ "m")] /\
    snd (perform_request _ _ _ (demo (200, "hello") false) r true "m") = Ok (RFailed _) /\
    snd (perform_request _ _ _ (demo (403, "hello") true) r true "m") = Ok (RFailed _) /\
    snd (perform_request _ _ _ (demo (200, "refused") true) r true "m") = Raise KeyError.
Proof. eexists. split; [reflexivity|]. repeat split; try reflexivity. simpl; auto. Qed.

(** ** C60, VTN side *)
Definition vtn_registered (adds : list (string * vtn_hook)) (r : hook_registry) : Prop :=
  foldM (fun r '(p, h) => hooks_register r p h) adds vtn_hooks_initial = Ok r.

Definition vtn_hooks_for (adds : list (string * vtn_hook)) (p : string) : list vtn_hook :=
  map snd (filter (fun a => fst a =? p)%string adds).

Lemma vtn_registered_get adds r : vtn_registered adds r -> forall p,
  match get String.eqb p r with Some hs => hs | None => [] end = vtn_hooks_for adds p.
Proof.
  intros H p.
  assert (G : forall adds r0, foldM (fun r '(p, h) => hooks_register r p h) adds r0 = Ok r ->
    match get String.eqb p r with Some hs => hs | None => [] end
    = ((match get String.eqb p r0 with Some hs => hs | None => [] end) ++ vtn_hooks_for adds p)%list).
  { clear. induction adds as [|[q h] adds IH]; intros r0 H; simpl in H.
    - injection H as <-. unfold vtn_hooks_for; simpl. now rewrite app_nil_r.
    - destruct (hooks_register r0 q h) as [r1|] eqn:E; simpl in H; [|discriminate].
      rewrite (IH _ H). unfold hooks_register in E. destruct (get String.eqb q r0) as [hs|] eqn:G; [|discriminate].
      injection E as <-. rewrite get_set by apply String.eqb_eq. rewrite String.eqb_sym.
      unfold vtn_hooks_for; simpl. destruct (String.eqb_spec q p) as [->|NE]; [|reflexivity].
      rewrite G, <- app_assoc. reflexivity. }
  rewrite (G _ _ H). unfold vtn_hooks_initial. simpl. repeat (destruct (p =? _)%string); reflexivity.
Qed.

Definition C60_vtn_full : Prop :=
  forall adds r p, vtn_registered adds r ->
    hooks_call r p = (map vtn_hook_id (vtn_hooks_for adds p), map vtn_hook_id (vtn_hooks_for adds p), Ok tt).

Theorem C60_vtn_hooks_refuted : ~ C60_vtn_full.
Proof.
  intros H. specialize (H [("before_parse", HSync 1); ("before_parse", HAsync 2)] _ "before_parse" eq_refl).
  vm_compute in H. discriminate.
Qed.
Print Assumptions C60_vtn_hooks_refuted.

(** Missing: hooks that are plain functions.  create_task refuses their
    result, so the call raises, later hooks do not run and the request fails. *)
Theorem C60_vtn_hooks_partial :
  forall adds r p, vtn_registered adds r ->
    (hooks_call r p = (map vtn_hook_id (vtn_hooks_for adds p), map vtn_hook_id (vtn_hooks_for adds p), Ok tt)
     <-> forall h, In h (vtn_hooks_for adds p) -> exists i, h = HAsync i) /\
    ((exists h, In h (vtn_hooks_for adds p) /\ forall i, h <> HAsync i) -> exists e, snd (hooks_call r p) = Raise e).
Proof.
  intros adds r p R. unfold hooks_call. rewrite (vtn_registered_get _ _ R). split.
  - split.
    + intros E. eapply hooks_call_ok with (c := []) (s := []). now rewrite E.
    + intros H. now rewrite hooks_call_async.
  - intros (h & I & N). destruct (hooks_call_loop (vtn_hooks_for adds p) [] []) as [[c s] o] eqn:E. destruct o as [[]|e]; [|simpl; eauto].
    exfalso. destruct (hooks_call_ok (vtn_hooks_for adds p) [] [] ltac:(now rewrite E) h I) as [i Hi]. eapply N; eassumption.
Qed.
Print Assumptions C60_vtn_hooks_partial.

(** Hooks can be registered for exactly the points at which a VTN calls them
    (vtn_service.py:57, 163, 167, 198). *)
Theorem C60_vtn_points : forall adds,
  (exists r, vtn_registered adds r) <-> forall p h, In (p, h) adds -> In p ["before_parse"; "before_handle"; "after_handle"; "before_respond"].
Proof.
  intros adds. unfold vtn_registered.
  assert (I0 : forall p, (exists hs, get String.eqb p vtn_hooks_initial = Some hs) <-> In p ["before_parse"; "before_handle"; "after_handle"; "before_respond"]).
  { intros p. unfold vtn_hooks_initial. cbn [get In]. split.
    - intros (hs & H). repeat match type of H with (if (?x =? ?y)%string then _ else _) = _ => destruct (String.eqb_spec x y) as [E|_]; [subst; tauto|] end. discriminate H.
    - intros H. repeat (destruct H as [<-|H]; [eexists; reflexivity|]). destruct H. }
  revert I0. generalize vtn_hooks_initial as r0. induction adds as [|[q h] adds IH]; intros r0 I0; cbn [foldM].
  - split; [intros _ p h [] | intros _; now exists r0].
  - unfold hooks_register at 1. destruct (get String.eqb q r0) as [hs|] eqn:G.
    + cbn [bind]. rewrite IH.
      * split; [|intros H p h' J; apply (H p h'); now right]. intros H p h' [[= <- <-]|J]; [apply I0; now exists hs | now apply (H p h')].
      * intros p. rewrite get_set by apply String.eqb_eq. rewrite <- I0. destruct (String.eqb_spec p q) as [->|_]; [|reflexivity]. split; intros _; eauto.
    + cbn [bind]. split; [intros (r & H); discriminate H|]. intros H. specialize (H q h (or_introl eq_refl)). apply I0 in H as (hs & H). congruence.
Qed.
Print Assumptions C60_vtn_points.

Example C60_vtn_example :
  exists r, vtn_registered [("before_parse", HAsync 3); ("after_handle", HSync 9); ("before_parse", HAsync 4)] r /\
    hooks_call r "before_parse" = ([3; 4]%nat, [3; 4]%nat, Ok tt) /\ snd (hooks_call r "after_handle") = Raise TypeError.
Proof. eexists. repeat split; reflexivity. Qed.
