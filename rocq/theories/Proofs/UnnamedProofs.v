(** Where the id of a VEN is in a message, and when it is missing. *)
From Coq Require Import ZArith String Ascii List Bool Lia Arith.
From Verif.Base Require Import Result Dict PyStr ListExtra.
From Verif.Model Require Import Duration DateTime Text Normalize Xml XmlText Schema SchemaTypes.
From Verif.Model Require VtnService Exchange Handling.
From Verif.Spec Require Import ReadableSpec.
From Verif.Spec Require VtnServiceSpec UnnamedSpec.
From Verif.Proofs Require Import NormalizeProofs CalmProofs ReadableProofs.
From Verif.Proofs Require VtnServiceProofs.
Import ListNotations.
Local Open Scope string_scope.

Section Keep.
Context (num : numbers).

(** What one round leaves in place. *)
Lemma tidy_keeps q key v d d' : q <> key -> existsb (String.eqb key) ["request_event"; "created_event"] = false ->
  tidy num key v d = Ok d' -> vmem q d = true -> vmem q d' = true.
Proof.
  intros N K H M. unfold tidy in H. rewrite K in H. cbn [andb] in H.
  assert (S : forall k x, vmem q (vset k x d) = true) by (intros; rewrite vmem_vset, M; apply orb_true_r).
  assert (D : vmem q (vdel key d) = true) by (rewrite vmem_vdel; assumption).
  assert (SD : forall k x, vmem q (vset k x (vdel key d)) = true) by (intros; rewrite vmem_vset, D; apply orb_true_r).
  destruct (String.eqb key "pending_reports").
  { destruct v; try (injection H as <-; now auto). destruct (vget _ _); injection H as <-; auto. }
  destruct (String.eqb key "event") eqn:E; cbn [andb] in H.
  - apply String.eqb_eq in E. subst key. destruct v; try (cbn in H; injection H as <-; now auto).
    + destruct (mapM as_event l); [|discriminate H]. injection H as <-. apply SD.
    + destruct (vmem "event" d0).
      * destruct (as_event _); [|discriminate H]. injection H as <-. apply SD.
      * cbn [existsb String.eqb Ascii.eqb Bool.eqb orb andb] in H. destruct (unnest num "event" (VDict d0)) as [[x|]|]; [injection H as <-; apply S | injection H as <-; exact D | discriminate H].
  - destruct (existsb (String.eqb key) ["report_request"; "report"; "specifier_payload"]); [injection H as <-; apply SD|].
    destruct (existsb (String.eqb key) ["report_description"; "event_signal"]).
    { destruct (measured_all _); [|discriminate H]. injection H as <-. apply SD. }
    destruct (String.eqb key "qualified_event_id" && _).
    { destruct v; try (injection H as <-; now auto). destruct (vget "event_id" d0); [|discriminate H]. destruct (vget "modification_number" d0); [|discriminate H].
      injection H as <-. rewrite vmem_vset. apply orb_true_iff. right. apply SD. }
    destruct (unnest num key v) as [[x|]|]; [injection H as <-; apply S | injection H as <-; exact D | discriminate H].
Qed.
Lemma entry_finish rec d k x d' : entry num rec d (k, x) = Ok d' -> marked k = true /\ d' = d \/
  marked k = false /\ exists v, finish num (fkey k) v d = Ok d' /\ (scalar_val x = true -> scalar_val v = true).
Proof.
  unfold entry, marked. destruct (startswith "@" k); [intros [= <-]; now left|]. cbv zeta. intros H. right. split; [reflexivity|]. fold (fkey k) in H.
  destruct (match x with VDict _ => _ | _ => _ end) as [v|] eqn:E in H; [|discriminate H]. exists v. split; [exact H|]. intros S.
  destruct x; try discriminate S; (eapply CalmProofs.interpret_scalar; [|exact E]; exact S).
Qed.
Definition wrappers : list string := ["request_event"; "created_event"].
Lemma finish_keeps k v d d' : finish num k v d = Ok d' -> ~ In k wrappers -> (k = "ven_id" -> scalar_val v = true) -> vmem "ven_id" d = true \/ k = "ven_id" -> vmem "ven_id" d' = true.
Proof.
  unfold finish. destruct (k =? "target") eqn:T.
  - apply String.eqb_eq in T. subst k. intros H _ _ [M|M]; [|discriminate M]. destruct (new_targets v); [|discriminate H]. cbn [bind] in H.
    assert (E : d' = vset "targets_by_type" (VDict (grouped a)) (vset "targets" (VList (map (fun kv => VDict [kv]) a)) (vdel "target" d))) by congruence. subst d'.
    rewrite !vmem_vset, vmem_vdel, M by discriminate. reflexivity.
  - intros H N S M. destruct (string_dec k "ven_id") as [->|NE].
    + rewrite tidy_general in H by reflexivity. rewrite unnest_leaf in H; [|reflexivity|].
      * cbn [bind] in H. assert (E : d' = vset "ven_id" v (vset "ven_id" v d)) by congruence. subst d'. now rewrite vmem_vset.
      * specialize (S eq_refl). now destruct v.
    + destruct M as [M|M]; [|congruence]. apply (tidy_keeps "ven_id" k v (vset k v d)); [congruence | | exact H |].
      * destruct (existsb _ _) eqn:E; [|reflexivity]. exfalso. apply N. apply existsb_exists in E as (q & I & E). apply String.eqb_eq in E. now subst q.
      * now rewrite vmem_vset, M, orb_true_r.
Qed.
Lemma fold_keeps rec d : lacks wrappers d -> (forall k v, In (k, v) d -> marked k = false -> fkey k = "ven_id" -> scalar_val v = true) ->
  forall d0 y, foldM (entry num rec) d d0 = Ok y -> vmem "ven_id" d0 = true \/ held "ven_id" d -> vmem "ven_id" y = true.
Proof.
  induction d as [|[k x] d IH]; intros L S d0 y H M.
  - cbn in H. injection H as <-. destruct M as [M|(k & v & [] & _)]. exact M.
  - cbn [foldM] in H. destruct (entry num rec d0 (k, x)) as [d1|] eqn:E; [|discriminate H]. cbn [bind] in H.
    assert (L' : lacks wrappers d) by (intros k' v' I; apply (L k' v'); now right).
    assert (S' : forall k v, In (k, v) d -> marked k = false -> fkey k = "ven_id" -> scalar_val v = true) by (intros k' v' I; apply (S k' v'); now right).
    apply (IH L' S' d1 y H). apply entry_finish in E as [[MK ->]|(MK & v & F & V)].
    + destruct M as [M|(k' & v' & [I|I] & A & B)]; [now left | congruence | right; now exists k', v'].
    + assert (NW : ~ In (fkey k) wrappers) by (destruct (L k x (or_introl eq_refl)); [congruence | assumption]).
      assert (SV : fkey k = "ven_id" -> scalar_val v = true) by (intros K; apply V; exact (S k x (or_introl eq_refl) MK K)).
      destruct M as [M|(k' & v' & [I|I] & A & B)].
      * left. exact (finish_keeps _ _ _ _ F NW SV (or_introl M)).
      * left. injection I as -> ->. exact (finish_keeps _ _ _ _ F NW SV (or_intror B)).
      * right. now exists k', v'.
Qed.
Lemma normalize_keeps n d y : lacks wrappers d -> (forall k v, In (k, v) d -> marked k = false -> fkey k = "ven_id" -> scalar_val v = true) -> held "ven_id" d ->
  normalize num n d = Ok y -> vmem "ven_id" y = true.
Proof. destruct n as [|n]; [discriminate|]. cbn [normalize]. intros L S H E. exact (fold_keeps _ d L S [] y E (or_intror H)). Qed.
Lemma fold_marked rec d d0 r : (forall kv, In kv d -> marked (fst kv) = true) -> foldM (entry num rec) (d ++ r)%list d0 = foldM (entry num rec) r d0.
Proof.
  intros M. induction d as [|[k x] d IH]; [reflexivity|]. cbn [app foldM].
  assert (E : entry num rec d0 (k, x) = Ok d0) by (unfold entry; pose proof (M (k, x) (or_introl eq_refl)) as K; cbn [fst] in K; unfold marked in K; now rewrite K).
  rewrite E. cbn [bind]. apply IH. intros kv I. apply M. now right.
Qed.
Lemma wrapped n attrs k x y : In (fkey k) wrappers -> marked k = false -> normalize num n (at_attrs attrs ++ [(k, VDict x)])%list = Ok y ->
  exists m, n = S m /\ normalize num m x = Ok y.
Proof.
  intros K MK H. destruct n as [|m]; [discriminate H|]. exists m. split; [reflexivity|]. cbn [normalize] in H. rewrite fold_marked in H.
  2:{ intros kv I. apply in_map_iff in I as (a & <- & _). apply marked_at. }
  cbn [foldM] in H. unfold entry in H. unfold marked in MK. rewrite MK in H. cbv zeta in H. fold (fkey k) in H.
  destruct (normalize num m x) as [z|]; [|discriminate H]. cbn [bind] in H.
  destruct K as [K|[K|[]]]; rewrite <- K in H; cbn in H; exact H.
Qed.
End Keep.

(** ** The types of the messages *)
Definition ven_scalar (ps : list particle) : bool :=
  unmarked ps && free wrappers ps && forallb (fun a => negb (String.eqb (kappa (fst a)) "ven_id") || scalar_ty (snd a) && once (plain_name (fst a)) ps) (all_alts ps).
Definition top_ven (t : ty) : bool := match t with Complex _ ps => ven_scalar ps | _ => false end.
Definition demands_ven (t : ty) : bool :=
  match t with
  | Complex _ ps => ven_scalar ps && needs "ven_id" ps
                    || match ps with
                       | [([(n, Complex _ ps')], 1, Some 1)] => inb (kappa n) wrappers && negb (marked (plain_name n)) && ven_scalar ps' && needs "ven_id" ps'
                       | _ => false
                       end
  | _ => false
  end.
Lemma messages_ven : forallb (fun a => top_ven (snd a) || inb (plain_name (fst a)) ["oadrCreatedEvent"; "oadrRequestEvent"]) messages = true.
Proof. vm_compute. reflexivity. Qed.
Lemma messages_demand : map (fun a => plain_name (fst a)) (filter (fun a => demands_ven (snd a)) messages)
  = ["oadrCreatedEvent"; "oadrRequestEvent"; "oadrCancelOpt"; "oadrCreateOpt"; "oadrRequestReregistration"; "oadrPoll"].
Proof. vm_compute. reflexivity. Qed.
Lemma always_named_demand a : In a messages -> In (plain_name (fst a)) UnnamedSpec.always_named -> demands_ven (snd a) = true.
Proof.
  intros I N. assert (C : forallb (fun a => negb (inb (plain_name (fst a)) UnnamedSpec.always_named) || demands_ven (snd a)) messages = true) by (vm_compute; reflexivity).
  rewrite forallb_forall in C. specialize (C a I). apply orb_true_iff in C as [C|C]; [|exact C]. apply negb_true_iff in C. apply inb_in in N. congruence.
Qed.
Local Opaque messages oadr_oadrSignedObject_element.

Section Parsed.
Context (num : numbers) (uri : string -> bool).
Local Notation valid' := (valid uri (fun _ => false)).

(** Reading a message is normalizing what is in it. *)
Lemma parse_object s x object depth kind y : read_expanded s = Some x -> envelope x object -> alone uri object -> parse_message num depth s = Ok (kind, y) ->
  exists on oa ot m t d, object = Elem on oa ot [m] /\ In (xml_name m, t) messages /\ valid' m t = true /\ kind = plain_name (xml_name m) /\ V m = VDict d /\ normalize num depth d = Ok y.
Proof.
  intros X (attrs & text & signature & -> & B & SG & NO) AL P. unfold parse_message, read_xml in P. rewrite X in P. cbn [option_map] in P.
  rewrite plain_name_of in P. change (plain_name (xml_name (Elem (in_oadr "oadrPayload") attrs text (signature ++ [object])))) with "oadrPayload" in P.
  change ("oadrPayload" =? "oadrPayload") with true in P. cbv iota in P. fold (V (Elem (in_oadr "oadrPayload") attrs text (signature ++ [object]))) in P.
  destruct (entries_of (in_oadr "oadrPayload") attrs text (signature ++ [object]) B) as (d & E & _ & e & -> & ND & G).
  { right. destruct signature; discriminate. }
  { intros c I. apply in_app_or in I as [I|[<-|[]]]; [rewrite (proj1 (Forall_forall _ _) SG c I) | rewrite NO]; reflexivity. }
  rewrite E in P. assert (VG : vget "oadrSignedObject" (at_attrs attrs ++ e)%list = Some (V object)).
  { rewrite vget_app. assert (VN : vget "oadrSignedObject" (at_attrs attrs) = None).
    { apply vget_none. intros I. apply in_map_iff in I as (kv & K & I). apply in_map_iff in I as (b & <- & _). discriminate K. }
    rewrite VN, G, map_app, called_app, !called_plain. replace (filter (fun c => plain_name (xml_name c) =? "oadrSignedObject") signature) with (@nil xml).
    - cbn [map app filter]. rewrite NO. change (plain_name (in_oadr "oadrSignedObject") =? "oadrSignedObject") with true. reflexivity.
    - clear - SG. induction SG as [|c l H _ IH]; [reflexivity|]. cbn [filter]. rewrite H. change (plain_name (in_ds "Signature") =? "oadrSignedObject") with false. exact IH. }
  rewrite VG in P. clear E VG ND G e. unfold alone in AL. destruct messages_are as [declared ME]. rewrite ME in AL. destruct object as [on oa ot ocs]. cbn [valid] in AL.
  destruct (existsb instance_attribute oa); [discriminate AL|]. rewrite !andb_true_iff in AL. destruct AL as [[_ OB] OC].
  apply child_one in OC as (c & t & EC & IT & VT). destruct ocs as [|m [|]]; try discriminate EC. cbn [map] in EC. injection EC as <-. cbn [fst snd] in *.
  assert (KI : In (plain_name (xml_name m)) kinds) by (rewrite <- messages_kinds; apply in_map_iff; now exists (xml_name m, t)).
  rewrite (V_last on oa ot m OB (kinds_unmarked _ KI)) in P. unfold last_item in P. rewrite rev_app_distr in P. cbn [rev app] in P.
  destruct (V m) as [| | | | | | | |d] eqn:VM; try discriminate P. destruct (normalize num depth d) as [z|] eqn:NZ; [|discriminate P]. cbn [bind] in P.
  assert (KY : kind = plain_name (xml_name m) /\ y = z) by (split; congruence). destruct KY as [-> ->].
  exists on, oa, ot, m, t, d. now repeat split.
Qed.

Lemma ven_scalar_of ps cs d : ven_scalar ps = true -> shaped uri ps cs d ->
  lacks wrappers d /\ (forall k v, In (k, v) d -> marked k = false -> fkey k = "ven_id" -> scalar_val v = true).
Proof.
  intros S SH. unfold ven_scalar in S. rewrite !andb_true_iff in S. destruct S as [[U F] S]. split; [exact (sh_lacks uri ps cs d wrappers SH F)|].
  intros k v I M K. destruct (sh_from _ _ _ _ _ _ SH I) as [?|(_ & l & NE & L & -> & O)]; [congruence|]. rewrite forallb_forall in S.
  destruct l as [|c l]; [contradiction|]. destruct (L c (or_introl eq_refl)) as [J P]. destruct (sh_type _ _ _ _ SH c J) as (t & A & VA).
  specialize (S _ A). cbn [fst snd] in S. unfold kappa in S. rewrite P, K, String.eqb_refl in S. cbn [negb orb] in S. apply andb_true_iff in S as [F1 F2].
  destruct (O F2) as [c' E]. injection E as -> ->. cbn [map one_or_list]. destruct (scalar_value _ _ _ F1 VA) as (n & s & -> & ->). apply text_val_scalar.
Qed.
Lemma unmarked_of ps : ven_scalar ps = true -> unmarked ps = true.
Proof. unfold ven_scalar. rewrite !andb_true_iff. tauto. Qed.

(** A message with venID among its elements. *)
Lemma top_named t m d n y c : top_ven t = true -> valid' m t = true -> V m = VDict d -> normalize num n d = Ok y ->
  In c (xml_children m) -> xml_name c = in_ei "venID" -> vmem "ven_id" y = true.
Proof.
  intros T VM E N I K. destruct t as [| |declared ps| |]; try discriminate T. cbn [top_ven] in T. destruct m as [nm attrs text cs]. cbn [xml_children] in I.
  destruct (shaped_of uri declared ps nm attrs text cs (unmarked_of _ T) VM) as [(_ & -> & _)|(d' & E' & SH)]; [destruct I|]. rewrite E in E'. injection E' as <-.
  destruct (ven_scalar_of ps cs d T SH) as [L S]. apply (normalize_keeps num n d y L S); [|exact N].
  destruct (en_held _ _ (sh_entries _ _ _ _ SH) c I) as [v J]. rewrite K in J. exists "venID", v. split; [exact J|]. split; reflexivity.
Qed.
(** A message of which the schema demands it. *)
Lemma demanded t m d n y : demands_ven t = true -> valid' m t = true -> V m = VDict d -> normalize num n d = Ok y -> vmem "ven_id" y = true.
Proof.
  intros T VM E N. destruct t as [| |declared ps| |]; try discriminate T. cbn [demands_ven] in T. destruct m as [nm attrs text cs]. apply orb_true_iff in T as [T|T].
  - apply andb_true_iff in T as [T1 T2]. destruct (shaped_required uri declared ps nm attrs text cs (unmarked_of _ T1) (needs_required _ _ T2) VM) as (d' & E' & SH).
    rewrite E in E'. injection E' as <-. destruct (ven_scalar_of ps cs d T1 SH) as [L S]. apply (normalize_keeps num n d y L S); [|exact N].
    exact (sh_held uri ps cs d "ven_id" SH (unmarked_of _ T1) T2).
  - destruct ps as [|[[[|[w [| |ds ps'| |]] [|]] [|[|]]] [[|[|]]|]] [|]]; try discriminate T.
    rewrite !andb_true_iff in T. destruct T as [[[T1 T2] T3] T4]. apply inb_in in T1. apply negb_true_iff in T2.
    cbn [valid] in VM. destruct (existsb instance_attribute attrs); [discriminate VM|]. rewrite !andb_true_iff in VM. destruct VM as [[_ B] C].
    apply child_sole in C as (f & EC & F). destruct cs as [|c [|]]; try discriminate EC. cbn [map] in EC. injection EC as E1 E2. subst w f.
    rewrite (V_last nm attrs text c B T2) in E. injection E as <-. destruct c as [cn ca ct ccs].
    destruct (shaped_required uri ds ps' cn ca ct ccs (unmarked_of _ T3) (needs_required _ _ T4) F) as (d' & E' & SH). rewrite E' in N.
    cbn [xml_name] in *. destruct (wrapped num n attrs (plain_name cn) d' y T1 T2 N) as (k & -> & N').
    destruct (ven_scalar_of ps' ccs d' T3 SH) as [L S]. apply (normalize_keeps num k d' y L S); [|exact N'].
    exact (sh_held uri ps' ccs d' "ven_id" SH (unmarked_of _ T3) T4).
Qed.

Theorem message_named s x object depth kind y : read_expanded s = Some x -> envelope x object -> alone uri object -> parse_message num depth s = Ok (kind, y) ->
  vget "ven_id" y = None -> UnnamedSpec.unnamed object /\ In kind kinds /\ ~ In kind UnnamedSpec.always_named.
Proof.
  intros X E A P N. destruct (parse_object s x object depth kind y X E A P) as (on & oa & ot & m & t & d & -> & IM & VM & -> & EV & NZ).
  assert (NM : vmem "ven_id" y <> true) by (intros M; apply vmem_get in M as [v M]; congruence).
  assert (ND : ~ In (plain_name (xml_name m)) UnnamedSpec.always_named).
  { intros I. apply NM. apply (demanded t m d depth y); try assumption. exact (always_named_demand (xml_name m, t) IM I). }
  split; [|split; [|exact ND]].
  - destruct m as [nm attrs text cs]. exists on, oa, ot, nm, attrs, text, cs. split; [reflexivity|]. intros c I K. apply NM.
    apply (top_named t (Elem nm attrs text cs) d depth y c); try assumption.
    pose proof (proj1 (forallb_forall _ _) messages_ven _ IM) as T. cbn [fst snd] in T. apply orb_true_iff in T as [T|T]; [exact T|]. exfalso. apply ND.
    apply inb_in in T. cbn [xml_name] in *. destruct T as [<-|[<-|[]]]; cbn; tauto.
  - rewrite <- messages_kinds. apply in_map_iff. now exists (xml_name m, t).
Qed.
End Parsed.

(** ** At the VTN *)
Import VtnService Exchange Handling VtnServiceSpec UnnamedSpec.
Lemma pget_received k d : pget k (received d) = option_map val_member (vget k d).
Proof. unfold pget, vget, received. induction d as [|[k' v] d IH]; [reflexivity|]. cbn [map get fst snd]. destruct (String.eqb k k'); [reflexivity | exact IH]. Qed.
Lemma unnamed_effective s t q : pget "ven_id" q = None -> effective s t q ->
  opening t \/ t = "oadrUpdateReport" \/ t = "oadrCancelPartyRegistration" \/ t = "oadrCreatedReport" /\ s_created_report s = true \/ t = "oadrRegisteredReport" /\ s_registered_report s = true.
Proof.
  intros N E. assert (NV : needs_ven q = ([], Raises KeyError)) by (unfold needs_ven; now rewrite N). unfold effective, handling, poll, request_event, created_event in E. rewrite NV in E.
  repeat match type of E with
         | context [if String.eqb t ?k then _ else _] =>
           let K := fresh "K" in destruct (String.eqb t k) eqn:K;
           [apply String.eqb_eq in K; subst t; first [now (exfalso; destruct E as [E|E]; [now apply E | discriminate E]) | unfold opening; now tauto | idtac] |]
         end.
  - exfalso. unfold register_report in E. rewrite NV in E. destruct (pget_none "reports" q) as [[]| |[]|]; destruct E as [E|E]; try discriminate E; now apply E.
  - do 3 right. left. split; [reflexivity|]. unfold created_report in E. destruct (s_created_report s); [reflexivity|]. rewrite NV in E. destruct E as [E|E]; [now destruct E | discriminate E].
  - do 4 right. split; [reflexivity|]. unfold registered_report in E. destruct (s_registered_report s); [reflexivity|]. rewrite N in E. destruct E as [E|E]; [now destruct E | discriminate E].
  - exfalso. destruct E as [E|E]; [now apply E | discriminate E].
Qed.
Lemma updates_called s l : s_callbacks s = [] -> (forall r, In r l -> exists d id, r = VDict d /\ vget "report_request_id" d = Some id) ->
  report_loop s l = (repeat (Calls "on_update_report") (length l), Ok tt).
Proof.
  intros C. induction l as [|r l IH]; intros H; [reflexivity|]. cbn [report_loop repeat length]. destruct (H r (or_introl eq_refl)) as (d & id & -> & I).
  unfold one_report. cbn [item]. rewrite I, C. rewrite IH; [reflexivity|]. intros r' J. apply H. now right.
Qed.

Section Vtn.
Context (other : val -> string) (num : numbers) (depth : nat) (uri : string -> bool) (foreign : xml -> bool)
        (decimals : Z -> nat -> string) (opaque : nat -> val).
Local Notation world_of := (vtn_world other num depth uri foreign decimals opaque).
Lemma handled_parsed v n text t q : In (Handled t q) (fst (handler (world_of v) (v_config v) (posted n text))) ->
  exists d, parse_message num depth text = Ok (t, d) /\ pget "ven_id" q = option_map val_member (vget "ven_id" d) /\
    (forall ven, n_secure n = true -> pget "ven_id" q = Some ven -> has_lookup (v_config v) -> authentic (world_of v) (v_config v) (posted n text) text t ven).
Proof.
  intros H. apply VtnServiceProofs.handled_iff in H as (body & p & (_ & B & _ & _ & P) & _ & _ & _ & A & Q & _). cbn in B. injection B as <-.
  cbn [w_parse vtn_world] in P. destruct (parse_message num depth text) as [[t' d]|]; [|discriminate P]. cbn [bind fst snd] in P.
  assert (t' = t /\ p = received d) as [-> ->] by (split; congruence). exists d. split; [reflexivity|].
  assert (G : pget "ven_id" q = pget "ven_id" (received d)).
  { destruct Q as [(_ & _ & fp & _ & ->)|(_ & ->)]; [|reflexivity]. unfold pget, pset. now rewrite (get_set_other String.eqb String.eqb_eq) by discriminate. }
  split; [rewrite G; apply pget_received|]. intros ven SEC V HL. rewrite G in V. exact (A ven SEC V HL).
Qed.
End Vtn.
