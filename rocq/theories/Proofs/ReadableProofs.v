(** What the schema's types guarantee for normalize_dict: a check of the types
    that makes the dicts of valid elements calm (Proofs/CalmProofs.v). *)
From Coq Require Import ZArith String Ascii List Bool Lia Arith.
From Verif.Base Require Import Result Dict PyStr ListExtra.
From Verif.Model Require Import Duration DateTime Text Normalize Xml XmlText Schema SchemaTypes.
From Verif.Spec Require Import Rfc5545 Timestamp TextSpec MessageSpec AcceptedSpec ReadableSpec.
From Verif.Proofs Require Import TextProofs DurationProofs DateTimeProofs RegexProofs XmlTextProofs SchemaValueProofs SchemaTreeProofs NormalizeProofs CalmProofs.
Import ListNotations.
Local Open Scope string_scope.

(** ** The check *)
Definition all_alts (ps : list particle) : list (string * ty) := flat_map p_alts ps.
Definition kappa (n : string) : string := fkey (plain_name n).
Definition least (p : particle) : nat := snd (fst p).
Definition free (ks : list string) (ps : list particle) : bool := forallb (fun a => negb (inb (kappa (fst a)) ks)) (all_alts ps).
Definition needs (q : string) (ps : list particle) : bool :=
  existsb (fun p => Nat.leb 1 (least p) && forallb (fun a => String.eqb (kappa (fst a)) q) (p_alts p)) ps.
Definition required (ps : list particle) : bool := existsb (fun p => Nat.leb 1 (least p)) ps.
Definition scalar_ty (t : ty) : bool := match t with Simple [] _ | Fixed _ _ => true | _ => false end.
(** At most how many children are called [k] ([None]: any number). *)
Fixpoint occurs (k : string) (ps : list particle) : option nat :=
  match ps with
  | [] => Some O
  | p :: ps =>
    if existsb (fun a => String.eqb (plain_name (fst a)) k) (p_alts p)
    then match snd p, occurs k ps with Some a, Some b => Some (a + b)%nat | _, _ => None end
    else occurs k ps
  end.
Definition once (k : string) (ps : list particle) : bool := match occurs k ps with Some n => Nat.leb n 1 | None => false end.
Definition solid_ty (q : string) (ps : list particle) : bool :=
  needs q ps && forallb (fun a => negb (String.eqb (kappa (fst a)) q) || (scalar_ty (snd a) && once (plain_name (fst a)) ps)) (all_alts ps).
Definition both_ty (a b : string) (t : ty) : bool :=
  match t with Complex _ ps => solid_ty a ps && solid_ty b ps && free movers ps | _ => false end.
Definition described_ty (ps : list particle) : bool :=
  forallb (fun a => negb (inb (kappa (fst a)) measurement_namespaces) || (both_ty "item_description" "item_units" (snd a) && once (plain_name (fst a)) ps)) (all_alts ps).
Definition dur_names : list string := ["duration"; "startafter"; "oadrMinPeriod"; "oadrMaxPeriod"].
(** Keys whose value may not be a list. *)
Definition single_keys : list string := ["duration"; "startafter"; "max_period"; "min_period"; "target"; "payload_float"; "event_descriptor"; "event"; "targets"].
Definition duration_ty (name : string) (t : ty) : bool :=
  match t with
  | Simple [] _ => inb name dur_names
  | Complex [] [([(n, Simple [] _)], 1, Some 1)] => String.eqb (plain_name n) "duration"
  | _ => false
  end.
Definition uid_ty (name : string) (t : ty) : bool :=
  String.eqb name "uid" && match t with Complex [] [([(n, Simple [] _)], 1, Some 1)] => String.eqb (plain_name n) "text" | _ => false end.
Definition float_ty (t : ty) : bool :=
  match t with Complex [] [([(n, Simple [] Float)], 1, Some 1)] => String.eqb (plain_name n) "value" | _ => false end.
Definition check_extra (m : nat) (name : string) (t : ty) : bool :=
  let k := fkey name in
  if inb k ["duration"; "startafter"; "max_period"; "min_period"] then duration_ty name t
  else if String.eqb k "target" then Nat.ltb 0 m && match t with Complex [] ps => forallb (fun a => inb (kappa (fst a)) target_keys) (all_alts ps) | _ => false end
  else if String.eqb k "uid" then uid_ty name t
  else if String.eqb k "payload_float" then float_ty t
  else if inb k ["qualified_event_id"; "event_descriptor"] then both_ty "event_id" "modification_number" t
  else if String.eqb k "event" then match t with Complex _ ps => free movers ps && needs "event_descriptor" ps && needs "target" ps | _ => false end
  else if describing k then match t with Complex _ ps => required ps && described_ty ps | _ => false end
  else if String.eqb k "report_payload" then match t with Complex _ ps => required ps && free movers ps | _ => false end
  else negb (inb k special_keys).
Section Check.
Variable known : list string.
Fixpoint check (n : nat) (t : ty) : bool :=
  match t with
  | Simple [] _ | Fixed _ _ | Foreign => true
  | Simple _ _ => false
  | Anything => Nat.ltb 0 n && inb "#text" known
  | Complex _ ps =>
    match n with
    | O => false
    | S m => forallb (fun a => inb (plain_name (fst a)) known && check m (snd a) && check_extra m (plain_name (fst a)) (snd a)
                                && (negb (inb (kappa (fst a)) single_keys) || once (plain_name (fst a)) ps)) (all_alts ps)
    end
  end.
End Check.
(** The names in a type. *)
Fixpoint within (n : nat) (t : ty) : list string :=
  match n, t with S m, Complex _ ps => flat_map (fun a => plain_name (fst a) :: within m (snd a)) (all_alts ps) | _, _ => [] end.
Definition messages : list (string * ty) := match oadr_oadrSignedObject_element with Complex _ ps => all_alts ps | _ => [] end.
Fixpoint uniq (l seen : list string) : list string := match l with [] => seen | x :: l => if inb x seen then uniq l seen else uniq l (x :: seen) end.
Definition raw : list string := Eval vm_compute in
  uniq (filter (fun k => negb (inb k ["oadrPendingReports"; "eiRequestEvent"; "eiCreatedEvent"])) (flat_map (fun a => within 20 (snd a)) messages)) [].
Definition known : list string := Eval vm_compute in uniq (raw ++ map fkey raw ++ derived ++ renamed ++ ["#text"])%list [].

(** The simple types of durations. *)
Fixpoint lengths (n : nat) (t : ty) : list simple :=
  match n, t with
  | S m, Complex _ ps => flat_map (fun a => ((if duration_key (kappa (fst a)) then match snd a with Simple _ s => [s] | _ => [] end else []) ++ lengths m (snd a))%list) (all_alts ps)
  | _, _ => []
  end.

(** ** Texts *)
Definition all_ascii : list ascii := map ascii_of_nat (seq 0 256).
Fixpoint chars_of (P : ascii -> bool) (r : regex) : bool :=
  match r with
  | Never | Empty => true
  | CharIn f => forallb (fun c => negb (f c) || P c) all_ascii
  | Seq a b | Or a b => chars_of P a && chars_of P b
  | Star a => chars_of P a
  end.
Lemma all_ascii_in c : In c all_ascii.
Proof.
  unfold all_ascii. apply in_map_iff. exists (nat_of_ascii c). split; [apply ascii_nat_embedding|]. apply List.in_seq. pose proof (nat_ascii_bounded c). lia.
Qed.
Lemma chars_of_spec P r s : chars_of P r = true -> language r s -> each (fun c => P c = true) s.
Proof.
  intros H L. revert H. induction L; cbn [chars_of]; intros E; rewrite ?andb_true_iff in E; try exact I.
  - rewrite forallb_forall in E. specialize (E c (all_ascii_in c)). rewrite H in E. now split.
  - apply each_app. split; [now apply IHL1 | now apply IHL2].
  - now apply IHL.
  - now apply IHL.
  - apply each_app. split; [now apply IHL1 | now apply IHL2].
Qed.
Definition unspaced (c : ascii) : bool := negb (is_space c).
Lemma flatten_unspaced t : each (fun c => unspaced c = true) t -> flatten_xml t = t.
Proof.
  intros E. apply flattening_flatten. rewrite <- (str_app_nil t) at 1. apply (fl_last "" t ""); try exact I.
  - split.
    + intros c r ->. destruct E as [E _]. unfold unspaced in E. apply negb_true_iff in E. now apply not_space_blank.
    + intros q c ->. apply each_app in E as [_ [E _]]. unfold unspaced in E. apply negb_true_iff in E. now apply not_space_blank.
  - cbn [append]. rewrite str_app_nil. clear - E. induction t as [|c t IH]; [tauto|]. destruct E as [E1 E2]. intros [<-|H]; [discriminate E1 | now apply IH].
Qed.
Lemma spacing_all_blank b : each spacing b -> all_blank b.
Proof. induction b as [|c b IH]; [auto|]. intros [A B]. split; [|now apply IH]. unfold spacing, blank in *. cbn [In] in *. intuition. Qed.
Lemma collapse_flatten r t : chars_of unspaced r = true -> nullable r = false -> matches r (collapse t) = true -> flatten_xml t = collapse t.
Proof.
  intros C N M. apply matches_spec in M. pose proof (chars_of_spec _ _ _ C M) as E. unfold collapse in *.
  destruct (words_worded t) as [b B|b w B W|b w c r' ws B W S R].
  - apply nullable_spec in M. congruence.
  - cbn [join] in *. rewrite flatten_blank_front by now apply spacing_all_blank. now apply flatten_unspaced.
  - destruct ws as [|w' ws].
    + cbn [join] in *. inversion R as [b' B' E1 E2| |]; subst.
      rewrite flatten_blank_front by now apply spacing_all_blank. rewrite flatten_blank_back; [now apply flatten_unspaced|].
      apply spacing_all_blank. now split.
    + exfalso. assert (X : each (fun c => unspaced c = true) (" " ++ join " " (w' :: ws))).
      { change (join " " (w :: w' :: ws)) with (w ++ (" " ++ join " " (w' :: ws))) in E. now apply each_app in E. }
      destruct X as [X _]. discriminate X.
Qed.
Lemma float_reads uri t : fits uri Float t = true -> text_val t = VStr (collapse t) /\ matches float_pattern (collapse t) = true.
Proof.
  cbn [fits]. intros M. split; [|exact M]. unfold text_val. rewrite (collapse_flatten float_pattern t) by (vm_compute; reflexivity) || exact M.
  destruct (collapse t); [vm_compute in M; discriminate M | reflexivity].
Qed.
Lemma duration_shape t : matches duration_pattern t = true ->
  (exists r, t = "P" ++ r) \/ (exists r, t = "+P" ++ r) \/ (exists r, t = "-P" ++ r) \/ exists n v r, number n v /\ t = n ++ "W" ++ r.
Proof.
  intros M. apply matches_spec in M. unfold duration_pattern in M. apply in_or in M as [M|M].
  - cbn [seqs] in M. apply in_seq in M as (a & b & -> & A & B). apply in_seq in B as (p & r & -> & P & _). apply in_lit in P as ->.
    apply in_perhaps in A as [->|A]; [left; now exists r|]. apply in_or in A as [A|A]; apply in_lit in A as ->; [right; right; left | right; left]; now exists r.
  - apply in_seq in M as (a & b & -> & A & B). apply in_lit in B as ->. right. right. right. apply in_plus_char in A as [N D].
    exists a, (int_of a), "". split; [|reflexivity].
    apply number_complete; [|exact N]. clear N. induction a as [|c a IH]; [reflexivity|]. destruct D as [D1 D2]. cbn [all_digits]. now rewrite D1, IH.
Qed.
Lemma duration_outcomes s : (exists z, parse_duration (DText s) = Ok z) \/ parse_duration (DText s) = Raise ValueError \/ parse_duration (DText s) = Raise OverflowError.
Proof.
  destruct (parse_duration (DText s)) eqn:E; [left; eauto|right]. unfold parse_duration in E. destruct (dur_match s) as [g|]; [|left; congruence].
  unfold mk_td in E. repeat match goal with H : context [if ?c then _ else _] |- _ => destruct c end; try discriminate; right; congruence.
Qed.
Lemma duration_reads uri t : fits uri xcal_DurationValueType t = true -> bounded t -> exists z, text_val t = VStr t /\ parse_duration (DText t) = Ok z.
Proof.
  cbn [xcal_DurationValueType fits andb]. change (Schema.value_of Text t) with t. intros M B.
  assert (F : flatten_xml t = t).
  { apply flatten_unspaced. apply (chars_of_spec unspaced duration_pattern); [vm_compute; reflexivity | now apply matches_spec]. }
  assert (B' := B (flatten_xml t) (flatten_flattening t)). rewrite F in B'.
  destruct (duration_outcomes t) as [[z E]|[E|E]].
  - exists z. split; [|exact E]. unfold text_val. rewrite F. destruct t; [vm_compute in M; discriminate M | reflexivity].
  - exfalso. apply parse_error_iff in E. apply E. now apply duration_shape.
  - contradiction.
Qed.

Lemma legible_text_ok num t : legible num t -> text_ok num (text_val t).
Proof.
  intros L. unfold text_val. destruct (flatten_xml t) eqn:F; [exact I|]. rewrite <- F. destruct (L _ (flatten_flattening t)) as [A B].
  generalize dependent (flatten_xml t). intros w _ A B. split.
  - rewrite interpret_text by reflexivity. destruct ((w =? "true") || (w =? "false")); [eauto|]. destruct (looks_int w) eqn:L1; [eauto|].
    destruct (looks_float w) eqn:L2; [|eauto]. apply looks_float_spec in L2. rewrite (A L2); [eauto|]. intros X. apply looks_int_spec in X. congruence.
  - unfold interpret. change (existsb _ _) with false. cbv iota. change (contains "date_time" "dtstart" || ("dtstart" =? "dtstart")%string) with true. cbv iota.
    destruct (timestamp_text_dec w) as [(y & mo & d & h & mi & se & us & T)|T]; [rewrite (parse_accepts _ _ _ _ _ _ _ _ T (B _ _ _ _ _ _ _ T)) | rewrite T]; cbn [bind]; eauto.
Qed.
Lemma text_val_scalar t : scalar_val (text_val t) = true.
Proof. unfold text_val. now destruct (flatten_xml t). Qed.
Lemma blank_text_val t : blank_text t = true -> text_val t = VNone.
Proof. intros B. unfold text_val. apply blank_spec in B. now rewrite flatten_blank by now apply spacing_all_blank. Qed.

(** ** Gathering the children of an element in a dict *)
Definition V (x : xml) : val := to_val (plain_xml x).
Definition called (k : string) (cs : list xml) : list xml := filter (fun c => String.eqb (xml_name c) k) cs.
Lemma V_flat x : flat (V x) = true.
Proof. unfold V. pose proof (to_val_not_list (plain_xml x)). now destruct (to_val _). Qed.
Definition gathered (cs : list xml) (e : vdict) : Prop :=
  NoDup (map fst e) /\ forall k, vget k e = match called k cs with [] => None | l => Some (one_or_list (map to_val l)) end.
Lemma called_app k a b : called k (a ++ b) = (called k a ++ called k b)%list.
Proof. apply filter_app. Qed.
Lemma gathered_step cs e c : gathered cs e -> gathered (cs ++ [c]) (push e (xml_name c) (to_val c)).
Proof.
  intros [N G]. assert (P : push e (xml_name c) (to_val c) = vset (xml_name c) (one_or_list (map to_val (called (xml_name c) cs ++ [c]))) e).
  { unfold push. rewrite G. destruct (called (xml_name c) cs) as [|a [|b l]]; cbn [app map one_or_list].
    - reflexivity.
    - pose proof (to_val_not_list a). now destruct (to_val a).
    - now rewrite map_app. }
  rewrite P. split.
  - now apply (nodup_set String.eqb String.eqb_eq).
  - intros k. unfold vget, vset. rewrite (get_set String.eqb String.eqb_eq). rewrite called_app. cbn [called filter]. rewrite (String.eqb_sym (xml_name c) k).
    destruct (String.eqb k (xml_name c)) eqn:E.
    + apply String.eqb_eq in E; subst k. destruct (called (xml_name c) cs); reflexivity.
    + rewrite app_nil_r. apply G.
Qed.
Lemma gathered_all cs : gathered cs (fold_left (fun d c => push d (xml_name c) (to_val c)) cs []).
Proof.
  enough (H : forall cs done e, gathered done e -> gathered (done ++ cs) (fold_left (fun d c => push d (xml_name c) (to_val c)) cs e)).
  { apply (H cs [] []). split; [constructor | reflexivity]. }
  clear cs. induction cs as [|c cs IH]; intros done e G; cbn [fold_left]; [now rewrite app_nil_r|].
  change (c :: cs) with ([c] ++ cs)%list. rewrite app_assoc. apply IH. now apply gathered_step.
Qed.
Lemma push_after d0 e k v : (forall kv, In kv d0 -> marked (fst kv) = true) -> marked k = false -> push (d0 ++ e)%list k v = (d0 ++ push e k v)%list.
Proof.
  intros D M. assert (N : forall q w, In (q, w) d0 -> String.eqb k q = false).
  { intros q w I. destruct (String.eqb k q) eqn:E; [|reflexivity]. apply String.eqb_eq in E; subst. specialize (D _ I). cbn in D. congruence. }
  assert (Gt : vget k (d0 ++ e)%list = vget k e).
  { unfold vget. clear D. induction d0 as [|[q w] d0 IH]; [reflexivity|]. cbn [app get]. rewrite (N q w (or_introl eq_refl)). apply IH. intros; eapply N; right; eassumption. }
  assert (St : forall u, vset k u (d0 ++ e)%list = (d0 ++ vset k u e)%list).
  { intros u. unfold vset. clear D Gt. induction d0 as [|[q w] d0 IH]; [reflexivity|]. cbn [app set]. rewrite (N q w (or_introl eq_refl)). f_equal. apply IH. intros; eapply N; right; eassumption. }
  unfold push. rewrite Gt. destruct (vget k e) as [[]|]; apply St.
Qed.
Lemma fold_after cs : forall d0 e, (forall kv, In kv d0 -> marked (fst kv) = true) -> (forall c, In c cs -> marked (xml_name c) = false) ->
  fold_left (fun d c => push d (xml_name c) (to_val c)) cs (d0 ++ e)%list = (d0 ++ fold_left (fun d c => push d (xml_name c) (to_val c)) cs e)%list.
Proof.
  induction cs as [|c cs IH]; intros d0 e D M; [reflexivity|]. cbn [fold_left]. rewrite push_after by (assumption || (apply M; now left)).
  apply IH; [assumption | intros; apply M; now right].
Qed.
Lemma marked_at k : marked ("@" ++ k) = true.
Proof. unfold marked, startswith. cbn. now destruct k. Qed.
Lemma plain_name_of x : xml_name (plain_xml x) = plain_name (xml_name x).
Proof. now destruct x. Qed.

Record entries (cs : list xml) (d : vdict) : Prop := mk_entries {
  en_from : forall k v, In (k, v) d -> marked k = true \/
     (marked k = false /\ exists l, l <> [] /\ l = filter (fun c => String.eqb (plain_name (xml_name c)) k) cs /\ v = one_or_list (map V l));
  en_held : forall c, In c cs -> exists v, In (plain_name (xml_name c), v) d }.
Lemma called_plain k cs : called k (map plain_xml cs) = map plain_xml (filter (fun c => String.eqb (plain_name (xml_name c)) k) cs).
Proof.
  unfold called. induction cs as [|c cs IH]; [reflexivity|]. cbn [map filter]. rewrite plain_name_of. destruct (String.eqb _ k); cbn [map]; now rewrite IH.
Qed.
Definition at_attrs (attrs : list (string * string)) : vdict :=
  map (fun a => ("@" ++ fst a, VStr (snd a))) (map (fun a : string * string => (plain_name (fst a), snd a)) attrs).
Lemma entries_of n attrs t cs : blank_text t = true -> attrs <> [] \/ cs <> [] -> (forall c, In c cs -> marked (plain_name (xml_name c)) = false) ->
  exists d, V (Elem n attrs t cs) = VDict d /\ entries cs d
    /\ exists e, d = (at_attrs attrs ++ e)%list
                 /\ gathered (map plain_xml cs) e.
Proof.
  intros B N M. unfold V. cbn [plain_xml].
  set (d0 := at_attrs attrs).
  set (e := fold_left (fun d c => push d (xml_name c) (to_val c)) (map plain_xml cs) []).
  assert (D0 : forall kv, In kv d0 -> marked (fst kv) = true).
  { intros kv I. apply in_map_iff in I as (a & <- & _). apply marked_at. }
  assert (E : fold_left (fun d c => push d (xml_name c) (to_val c)) (map plain_xml cs) d0 = (d0 ++ e)%list).
  { rewrite <- (app_nil_r d0) at 1. apply fold_after; [exact D0|]. intros c I. apply in_map_iff in I as (c' & <- & I). rewrite plain_name_of. now apply M. }
  assert (F : to_val (Elem (plain_name n) (map (fun a => (plain_name (fst a), snd a)) attrs) t (map plain_xml cs)) = VDict (d0 ++ e)%list).
  { rewrite <- E. pose proof (blank_text_val t B) as T. destruct attrs as [|a attrs]; destruct cs as [|c cs];
      try (destruct N as [N|N]; now contradiction N); cbn [to_val map] in *; now rewrite T. }
  exists (d0 ++ e)%list. split; [exact F|]. destruct (gathered_all (map plain_xml cs)) as [ND G]. fold e in ND, G. split; [|exists e; split; [reflexivity | now split]]. split.
  - intros k v I. apply in_app_or in I as [I|I]; [left; exact (D0 _ I)|]. right.
    apply (in_get_nodup String.eqb String.eqb_eq) in I; [|exact ND]. fold (vget k e) in I. rewrite G, called_plain in I.
    set (l := filter (fun c => String.eqb (plain_name (xml_name c)) k) cs) in *.
    destruct l as [|c l'] eqn:L; [discriminate I|]. cbn [map] in I. injection I as <-. split.
    + assert (J : In c (filter (fun c => String.eqb (plain_name (xml_name c)) k) cs)) by (fold l; rewrite L; now left).
      apply filter_In in J as [J K]. apply String.eqb_eq in K. rewrite <- K. now apply M.
    + exists (c :: l'). split; [discriminate|]. split; [reflexivity|]. unfold V. cbn [map]. now rewrite map_map.
  - intros c I. specialize (G (plain_name (xml_name c))). rewrite called_plain in G.
    assert (J : In c (filter (fun c' => String.eqb (plain_name (xml_name c')) (plain_name (xml_name c))) cs)) by (apply filter_In; split; [exact I | apply String.eqb_refl]).
    destruct (filter _ cs) as [|a l]; [contradiction|]. cbn [map] in G. eexists. apply in_or_app. right. apply vget_in. exact G.
Qed.

(** ** The children that a type allows *)
Lemma span_spec {B} alts (cs : list (string * B)) a b : span_names alts cs = (a, b) -> cs = (a ++ b)%list /\ forall c, In c a -> exists t, find_name (fst c) alts = Some t.
Proof.
  revert a b. induction cs as [|c cs IH]; intros a b E; cbn [span_names] in E.
  - injection E as <- <-. split; [reflexivity | intros c []].
  - destruct (find_name (fst c) alts) as [t|] eqn:F.
    + destruct (span_names alts cs) as [a' b']. injection E as <- <-. destruct (IH _ _ eq_refl) as [-> H]. split; [reflexivity|].
      intros c' [<-|I]; [eauto | now apply H].
    + injection E as <- <-. split; [reflexivity | intros c' []].
Qed.
Lemma child_type ps (cs : list (string * (ty -> bool))) : children ps cs = true -> forall c, In c cs -> exists t, In (fst c, t) (all_alts ps) /\ snd c t = true.
Proof.
  revert cs. induction ps as [|p ps IH]; intros cs H c I; cbn [children] in H.
  - destruct cs; [contradiction | discriminate H].
  - destruct (span_names (p_alts p) cs) as [mine rest] eqn:S. apply span_spec in S as [-> M]. rewrite !andb_true_iff in H. destruct H as [[_ F] R].
    apply in_app_or in I as [I|I].
    + rewrite forallb_forall in F. specialize (F c I). destruct (find_name (fst c) (p_alts p)) as [t|] eqn:E; [|discriminate F]. exists t. split; [|exact F].
      apply in_or_app. left. now apply find_name_In.
    + destruct (IH rest R c I) as (t & J & K). exists t. split; [apply in_or_app; now right | exact K].
Qed.
Lemma child_count k ps : forall (cs : list (string * (ty -> bool))) m, children ps cs = true -> occurs k ps = Some m ->
  length (filter (fun c => String.eqb (plain_name (fst c)) k) cs) <= m.
Proof.
  induction ps as [|p ps IH]; intros cs m H O; cbn [children occurs] in *.
  - destruct cs; [cbn; lia | discriminate H].
  - destruct (span_names (p_alts p) cs) as [mine rest] eqn:S. apply span_spec in S as [-> M]. rewrite !andb_true_iff in H. destruct H as [[E F] R].
    rewrite filter_app, app_length. destruct (existsb _ (p_alts p)) eqn:X.
    + destruct p as [[alts lo] [hi|]]; [|discriminate O]. cbn [snd] in *. destruct (occurs k ps) as [b|]; [|discriminate O]. injection O as <-.
      pose proof (IH rest b R eq_refl) as L. unfold enough in E. cbn [fst snd] in E. apply andb_true_iff in E as [_ E]. apply Nat.leb_le in E.
      assert (length (filter (fun c => String.eqb (plain_name (fst c)) k) mine) <= length mine) by (clear; induction mine as [|c l IHl]; cbn [filter]; [lia|]; destruct (String.eqb _ k); cbn [length]; lia). lia.
    + assert (Z : filter (fun c : string * (ty -> bool) => String.eqb (plain_name (fst c)) k) mine = []).
      { clear - M X. induction mine as [|c l IHl]; [reflexivity|]. cbn [filter]. destruct (String.eqb (plain_name (fst c)) k) eqn:E.
        - exfalso. destruct (M c (or_introl eq_refl)) as [t T]. apply find_name_In in T. assert (existsb (fun a : string * ty => String.eqb (plain_name (fst a)) k) (p_alts p) = true); [|congruence].
          apply existsb_exists. exists (fst c, t). split; [exact T | exact E].
        - apply IHl. intros; apply M; now right. }
      rewrite Z. cbn [length]. now apply IH.
Qed.
Lemma child_needed q ps : forall (cs : list (string * (ty -> bool))), children ps cs = true -> needs q ps = true -> exists c, In c cs /\ kappa (fst c) = q.
Proof.
  induction ps as [|p ps IH]; intros cs H N; [discriminate N|]. cbn [children] in H.
  destruct (span_names (p_alts p) cs) as [mine rest] eqn:S. apply span_spec in S as [-> M]. rewrite !andb_true_iff in H. destruct H as [[E F] R].
  unfold needs in N. cbn [existsb] in N. apply orb_true_iff in N as [N|N].
  - apply andb_true_iff in N as [L A]. unfold enough in E. apply andb_true_iff in E as [E _]. unfold least in L. apply Nat.leb_le in L. apply Nat.leb_le in E.
    destruct mine as [|c mine]; [cbn in E; lia|]. exists c. split; [now left|]. destruct (M c (or_introl eq_refl)) as [t T]. apply find_name_In in T.
    rewrite forallb_forall in A. specialize (A _ T). now apply String.eqb_eq in A.
  - destruct (IH rest R N) as (c & I & K). exists c. split; [apply in_or_app; now right | exact K].
Qed.
Lemma child_required ps : forall (cs : list (string * (ty -> bool))), children ps cs = true -> required ps = true -> cs <> [].
Proof.
  induction ps as [|p ps IH]; intros cs H N; [discriminate N|]. cbn [children] in H.
  destruct (span_names (p_alts p) cs) as [mine rest] eqn:S. apply span_spec in S as [-> M]. rewrite !andb_true_iff in H. destruct H as [[E F] R].
  unfold required in N. cbn [existsb] in N. apply orb_true_iff in N as [N|N].
  - unfold enough in E. apply andb_true_iff in E as [E _]. unfold least in N. apply Nat.leb_le in N. apply Nat.leb_le in E. destruct mine; [cbn in E; lia | discriminate].
  - specialize (IH rest R N). destruct mine; [exact IH | discriminate].
Qed.
Lemma needs_required q ps : needs q ps = true -> required ps = true.
Proof. unfold needs, required. rewrite !existsb_exists. intros (p & I & E). apply andb_true_iff in E as [E _]. now exists p. Qed.
Lemma child_sole n t (cs : list (string * (ty -> bool))) : children [([(n, t)], 1, Some 1)] cs = true -> exists f, cs = [(n, f)] /\ f t = true.
Proof.
  intros H. cbn [children] in H. destruct (span_names (p_alts ([(n, t)], 1, Some 1)) cs) as [mine rest] eqn:S. apply span_spec in S as [-> M].
  rewrite !andb_true_iff in H. destruct H as [[E F] R]. destruct rest; [|discriminate R]. unfold enough in E. cbn [fst snd] in E. apply andb_true_iff in E as [E1 E2].
  apply Nat.leb_le in E1. apply Nat.leb_le in E2. destruct mine as [|[m f] [|]]; cbn [length] in *; try lia. exists f.
  cbn [forallb fst snd] in F. destruct (M (m, f) (or_introl eq_refl)) as [t' T]. cbn [fst] in T. rewrite T in F. apply find_name_In in T as [[= -> ->]|[]].
  split; [reflexivity|]. now rewrite andb_true_r in F.
Qed.

(** ** What valid elements become *)
Section Main.
Context (num : numbers).
Variable uri : string -> bool.
Hypothesis floats : reads_floats num.
Local Notation valid' := (valid uri (fun _ => false)).
Local Notation calm' := (calm num known).
Local Notation extra' := (extra num).

Lemma known_good : forallb (known_ok known) known = true.
Proof. vm_compute. reflexivity. Qed.
Lemma known_rest : forallb (fun k => inb k known && (fkey k =? k)) (derived ++ renamed)%list = true.
Proof. vm_compute. reflexivity. Qed.
Lemma in_known k : inb k known = true -> In k known.
Proof. apply inb_in. Qed.
Lemma known_unmarked k : inb k known = true -> marked k = false.
Proof. intros I. apply in_known in I. exact (kf_unmarked known k (known_is known known_good k I)). Qed.
Local Opaque known.

Lemma extra_duration n k v : duration_key k = true -> (dur_text v \/ exists w, v = VDict [("duration", w)] /\ dur_text w) -> extra' n k v.
Proof.
  intros K H. apply existsb_in in K. split; intros E; try (subst k; repeat (destruct K as [K|K]; [discriminate K|]); now destruct K).
  - exact H.
  - exfalso. apply existsb_in in E. destruct E as [<-|[<-|[]]]; repeat (destruct K as [K|K]; [discriminate K|]); now destruct K.
Qed.
Lemma extra_target n v : ((v = VNone /\ n <> O) \/ exists x, v = VDict x /\ only target_keys x) -> extra' n "target" v.
Proof. intros H. split; intros E; try discriminate E. exact H. Qed.
Lemma extra_uid n v : (match v with VDict x => exists w, x = [("text", w)] /\ int_good w | _ => True end) -> extra' n "uid" v.
Proof. intros H. split; intros E; try discriminate E. exact H. Qed.
Lemma extra_float n v : (exists w, v = VDict [("value", w)] /\ float_good num w) -> extra' n "payload_float" v.
Proof. intros H. split; intros E; try discriminate E. exact H. Qed.
Lemma extra_ids n k v : In k ["qualified_event_id"; "event_descriptor"] -> (exists x, v = VDict x /\ ids x) -> extra' n k v.
Proof. intros K (x & -> & H). destruct K as [<-|[<-|[]]]; split; intros E; try discriminate E; [exact H | eauto]. Qed.
Lemma extra_event n v : (exists x, v = VDict x /\ inner x) -> extra' n "event" v.
Proof. intros H. split; intros E; try discriminate E. exact H. Qed.
Lemma extra_described n k v : describing k = true -> (forall i, In i (items_of v) -> exists x, i = VDict x /\ described x) -> extra' n k v.
Proof.
  intros K H. assert (K2 := K). apply existsb_in in K2. split; intros E; try (subst k; now destruct K2 as [K2|[K2|[]]]).
  - destruct K2 as [<-|[<-|[]]]; discriminate E.
  - exact H.
Qed.
Lemma extra_payload n v : (match v with VDict x => lacks movers x | VList _ => True | _ => False end) -> extra' n "report_payload" v.
Proof. intros H. split; intros E; try discriminate E. exact H. Qed.
Lemma extra_many n k l : inb k single_keys = false -> (forall i, In i l -> flat i = true /\ extra' n k i) -> extra' n k (VList l).
Proof.
  intros S H. assert (N : forall q, In q single_keys -> k <> q).
  { intros q I ->. apply inb_in in I. congruence. }
  split; intros E; try exact I; try (exfalso; subst k; eapply N; [|reflexivity]; cbn; tauto).
  - exfalso. apply existsb_in in E. apply (N k); [|reflexivity]. cbn in E |- *. tauto.
  - cbn [items_of]. intros i J. destruct (H i J) as [F X]. apply (x_described _ _ _ _ X E). destruct i; try discriminate F; now left.
Qed.

Lemma attributes_none attrs : attributes uri [] attrs = true -> attrs = [].
Proof. destruct attrs; [reflexivity | discriminate]. Qed.

(** An element with children by a type. *)
Record shaped (ps : list particle) (cs : list xml) (d : vdict) : Prop := mk_shaped {
  sh_entries : entries cs d;
  sh_children : children ps (map (fun c => (xml_name c, valid' c)) cs) = true }.
Lemma sh_type ps cs d : shaped ps cs d -> forall c, In c cs -> exists t, In (xml_name c, t) (all_alts ps) /\ valid' c t = true.
Proof. intros [_ C] c I. destruct (child_type ps _ C (xml_name c, valid' c)) as (t & A & B); [apply in_map_iff; now exists c|]. now exists t. Qed.
Lemma sh_from ps cs d k v : shaped ps cs d -> In (k, v) d -> marked k = true \/
  (marked k = false /\ exists l, l <> [] /\ (forall c, In c l -> In c cs /\ plain_name (xml_name c) = k) /\ v = one_or_list (map V l) /\ (once k ps = true -> exists c, l = [c])).
Proof.
  intros [[A _] C] I. destruct (A k v I) as [M|(M & l & N & -> & E)]; [now left|]. right. split; [exact M|].
  exists (filter (fun c => plain_name (xml_name c) =? k) cs). split; [exact N|]. split; [|split; [exact E|]].
  - intros c J. apply filter_In in J as [J K]. apply String.eqb_eq in K. now split.
  - unfold once. destruct (occurs k ps) as [m|] eqn:O; [|discriminate]. intros L. apply Nat.leb_le in L.
    pose proof (child_count k ps _ m C O) as X.
    assert (Y : length (filter (fun c => plain_name (xml_name c) =? k) cs) = length (filter (fun c => plain_name (fst c) =? k) (map (fun c => (xml_name c, valid' c)) cs))).
    { clear. induction cs as [|c cs IH]; [reflexivity|]. cbn [map filter fst]. destruct (plain_name (xml_name c) =? k); cbn [length]; now rewrite IH. }
    rewrite <- Y in X. destruct (filter _ cs) as [|c [|]]; [contradiction | now exists c | cbn [length] in X; lia].
Qed.
Lemma sh_lacks ps cs d ks : shaped ps cs d -> free ks ps = true -> lacks ks d.
Proof.
  intros S F k v I. destruct (sh_from _ _ _ _ _ S I) as [M|(M & l & N & L & _)]; [now left|]. right. destruct l as [|c l]; [contradiction|].
  destruct (L c (or_introl eq_refl)) as [J K]. destruct (sh_type _ _ _ S c J) as (t & A & _). unfold free in F. rewrite forallb_forall in F. specialize (F _ A).
  cbn [fst] in F. unfold kappa in F. rewrite K in F. apply negb_true_iff in F. intros X. apply inb_in in X. congruence.
Qed.
Lemma sh_held ps cs d q : shaped ps cs d -> forallb (fun a => negb (marked (plain_name (fst a)))) (all_alts ps) = true -> needs q ps = true -> held q d.
Proof.
  intros S U N. destruct (child_needed q ps _ (sh_children _ _ _ S) N) as (c & I & K). apply in_map_iff in I as (x & <- & I). cbn [fst] in K.
  destruct (en_held _ _ (sh_entries _ _ _ S) x I) as [v J]. exists (plain_name (xml_name x)), v. split; [exact J|]. split; [|exact K].
  destruct (sh_type _ _ _ S x I) as (t & A & _). rewrite forallb_forall in U. specialize (U _ A). now apply negb_true_iff in U.
Qed.
Lemma scalar_value c t : scalar_ty t = true -> valid' c t = true -> exists n s, c = Elem n [] s [] /\ V c = text_val s.
Proof.
  destruct c as [n attrs s cs]. cbn [valid]. destruct (existsb instance_attribute attrs); [discriminate|]. destruct t as [declared sm|sm w| | |]; try discriminate.
  - destruct declared; [|discriminate]. intros _ H. apply andb_true_iff in H as [A B]. apply attributes_none in A as ->. destruct cs; [|discriminate B]. now exists n, s.
  - intros _ H. apply andb_true_iff in H as [A B]. apply attributes_none in A as ->. destruct cs; [|discriminate B]. now exists n, s.
Qed.
Lemma sh_solid ps cs d q : shaped ps cs d -> forallb (fun a => negb (marked (plain_name (fst a)))) (all_alts ps) = true -> solid_ty q ps = true -> solid q d.
Proof.
  intros S U N. unfold solid_ty in N. apply andb_true_iff in N as [N F]. split; [now apply (sh_held ps cs)|].
  intros k v I M K. destruct (sh_from _ _ _ _ _ S I) as [?|(_ & l & NE & L & -> & O)]; [congruence|]. rewrite forallb_forall in F.
  destruct l as [|c l]; [contradiction|]. destruct (L c (or_introl eq_refl)) as [J P]. destruct (sh_type _ _ _ S c J) as (t & A & VA).
  specialize (F _ A). cbn [fst snd] in F. unfold kappa in F. rewrite P, K, String.eqb_refl in F. cbn [negb orb] in F. apply andb_true_iff in F as [F1 F2].
  destruct (O F2) as [c' E]. injection E as -> ->. cbn [map one_or_list]. destruct (scalar_value _ _ F1 VA) as (n & s & -> & ->). apply text_val_scalar.
Qed.
Definition unmarked (ps : list particle) : bool := forallb (fun a => negb (marked (plain_name (fst a)))) (all_alts ps).
Lemma shaped_of declared ps n attrs text cs : unmarked ps = true -> valid' (Elem n attrs text cs) (Complex declared ps) = true ->
  (attrs = [] /\ cs = [] /\ V (Elem n attrs text cs) = VNone) \/ exists d, V (Elem n attrs text cs) = VDict d /\ shaped ps cs d.
Proof.
  intros U H. cbn [valid] in H. destruct (existsb instance_attribute attrs); [discriminate H|]. rewrite !andb_true_iff in H. destruct H as [[_ B] C].
  assert (D : (attrs = [] /\ cs = []) \/ (attrs <> [] \/ cs <> [])) by (destruct attrs; [destruct cs; [now left | right; now right] | right; now left]).
  destruct D as [[-> ->]|D]; [left; split; [reflexivity | split; [reflexivity|]]; cbn; now apply blank_text_val|]. right.
  destruct (entries_of n attrs text cs B D) as (d & E & EN & _).
  - intros c I. destruct (child_type ps _ C (xml_name c, valid' c)) as (t & A & _); [apply in_map_iff; now exists c|].
    unfold unmarked in U. rewrite forallb_forall in U. specialize (U _ A). now apply negb_true_iff in U.
  - exists d. split; [exact E|]. now split.
Qed.
Lemma shaped_required declared ps n attrs text cs : unmarked ps = true -> required ps = true -> valid' (Elem n attrs text cs) (Complex declared ps) = true ->
  exists d, V (Elem n attrs text cs) = VDict d /\ shaped ps cs d.
Proof.
  intros U R H. destruct (shaped_of _ _ _ _ _ _ U H) as [(-> & -> & _)|X]; [|exact X]. exfalso.
  cbn [valid] in H. cbn [existsb] in H. rewrite !andb_true_iff in H. destruct H as [_ C]. exact (child_required ps _ C R eq_refl).
Qed.
Lemma check_unmarked n declared ps : check known n (Complex declared ps) = true -> unmarked ps = true.
Proof.
  destruct n as [|m]; [discriminate|]. cbn [check]. unfold unmarked. rewrite !forallb_forall. intros H a I. specialize (H a I).
  rewrite !andb_true_iff in H. destruct H as [[[K _] _] _]. now rewrite (known_unmarked _ K).
Qed.
Lemma both_of n a b t x : check known n t = true -> both_ty a b t = true -> valid' x t = true -> exists d, V x = VDict d /\ both a b d.
Proof.
  intros C B H. destruct t as [| |declared ps| |]; try discriminate B. cbn [both_ty] in B. rewrite !andb_true_iff in B. destruct B as [[A1 A2] F].
  pose proof (check_unmarked _ _ _ C) as U. destruct x as [nm attrs text cs].
  destruct (shaped_required declared ps nm attrs text cs U) as (d & E & S); [|exact H|].
  - unfold solid_ty in A1. apply andb_true_iff in A1 as [A1 _]. exact (needs_required _ _ A1).
  - exists d. split; [exact E|]. split; [|split].
    + now apply (sh_solid ps cs).
    + now apply (sh_solid ps cs).
    + now apply (sh_lacks ps cs).
Qed.
Lemma only_child n text c : blank_text text = true -> V (Elem n [] text [c]) = VDict [(plain_name (xml_name c), V c)].
Proof. intros B. unfold V. cbn [plain_xml map to_val fold_left]. rewrite blank_text_val by exact B. rewrite plain_name_of. reflexivity. Qed.
Lemma sole_of n attrs text cs nm t : valid' (Elem n attrs text cs) (Complex [] [([(nm, t)], 1, Some 1)]) = true ->
  exists c, attrs = [] /\ cs = [c] /\ xml_name c = nm /\ valid' c t = true /\ V (Elem n attrs text cs) = VDict [(plain_name nm, V c)].
Proof.
  intros H. cbn [valid] in H. destruct (existsb instance_attribute attrs); [discriminate H|]. rewrite !andb_true_iff in H. destruct H as [[A B] C].
  apply attributes_none in A as ->. apply child_sole in C as (f & E & F). destruct cs as [|c [|]]; try discriminate E. cbn [map] in E. injection E as E1 E2. subst nm f.
  exists c. repeat (split; [first [reflexivity | assumption]|]). now apply only_child.
Qed.
Lemma readable_in name attrs text cs c : readable num (plain_xml (Elem name attrs text cs)) -> In c cs -> readable num (plain_xml c).
Proof.
  cbn [plain_xml readable]. intros (_ & _ & _ & R) I. induction cs as [|c' cs IH]; [contradiction|]. cbn [map] in R. destruct R as [R1 R2]. destruct I as [<-|I]; [exact R1 | now apply IH].
Qed.

Definition sized (n : nat) (t : ty) : Prop := forall s, In s (lengths n t) -> s = xcal_DurationValueType.
Definition sized_here (k : string) (t : ty) : Prop := duration_key k = true -> forall ds s, t = Simple ds s -> s = xcal_DurationValueType.
Definition good (n : nat) (x : xml) (t : ty) : Prop :=
  calm' n (V x) /\ (check_extra n (plain_name (xml_name x)) t = true -> sized_here (kappa (xml_name x)) t -> extra' n (kappa (xml_name x)) (V x)).
Definition fits_in (m : nat) (ps : list particle) (a : string * ty) : bool :=
  inb (plain_name (fst a)) known && check known m (snd a) && check_extra m (plain_name (fst a)) (snd a)
  && (negb (inb (kappa (fst a)) single_keys) || once (plain_name (fst a)) ps).
Lemma sized_alt m declared ps a : sized (S m) (Complex declared ps) -> In a (all_alts ps) -> sized m (snd a) /\ sized_here (kappa (fst a)) (snd a).
Proof.
  intros Z I. split.
  - intros s J. apply Z. cbn [lengths]. apply in_flat_map. exists a. split; [exact I|]. apply in_or_app. now right.
  - intros D ds s E. apply Z. cbn [lengths]. apply in_flat_map. exists a. split; [exact I|]. apply in_or_app. left. rewrite D, E. now left.
Qed.
Lemma good_entry m ps cs d k u :
  (forall c, In c cs -> forall n t, valid' c t = true -> check known n t = true -> sized n t -> good n c t) -> shaped ps cs d ->
  (forall a, In a (all_alts ps) -> plain_name (fst a) = k -> fits_in m ps a = true /\ sized m (snd a) /\ sized_here (kappa (fst a)) (snd a)) ->
  In (k, u) d -> marked k = true \/ (In k known /\ calm' m u /\ extra' m (fkey k) u).
Proof.
  intros IH S C I. destruct (sh_from _ _ _ _ _ S I) as [M|(M & l & N & L & -> & O)]; [now left|]. right.
  assert (G : forall c, In c l -> inb k known = true /\ calm' m (V c) /\ extra' m (fkey k) (V c) /\ (inb (fkey k) single_keys = true -> exists c', l = [c'])).
  { intros c J. destruct (L c J) as [Jc P]. destruct (sh_type _ _ _ S c Jc) as (t & A & VA). destruct (C _ A P) as (F & Z & Zh). unfold fits_in in F. cbn [fst snd] in F, Z, Zh.
    rewrite !andb_true_iff in F. destruct F as [[[C1 C2] C3] C4]. rewrite P in C1. unfold kappa in C4. rewrite P in C4.
    destruct (IH c Jc m t VA C2 Z) as [X Y]. split; [exact C1|]. split; [exact X|]. split.
    - specialize (Y C3 Zh). unfold kappa in Y. now rewrite P in Y.
    - intros X2. rewrite X2 in C4. cbn [negb orb] in C4. now apply O. }
  destruct l as [|c [|c2 l]]; [contradiction | |].
  - destruct (G c (or_introl eq_refl)) as (A & B & D & _). cbn [map one_or_list]. split; [now apply in_known | now split].
  - destruct (G c (or_introl eq_refl)) as (A & _ & _ & D). split; [now apply in_known|]. cbn [map one_or_list]. split.
    + apply calm_list. intros i J. change (In i (map V (c :: c2 :: l))) in J. apply in_map_iff in J as (x & <- & J). split; [apply V_flat|]. now apply G.
    + apply extra_many.
      * destruct (inb (fkey k) single_keys); [|reflexivity]. destruct (D eq_refl) as [c' E]. discriminate E.
      * intros i J. change (In i (map V (c :: c2 :: l))) in J. apply in_map_iff in J as (x & <- & J). split; [apply V_flat|]. now apply G.
Qed.
Lemma good_children m declared ps cs d :
  (forall c, In c cs -> forall n t, valid' c t = true -> check known n t = true -> sized n t -> good n c t) ->
  check known (S m) (Complex declared ps) = true -> sized (S m) (Complex declared ps) -> shaped ps cs d ->
  forall k u, In (k, u) d -> marked k = true \/ (In k known /\ calm' m u /\ extra' m (fkey k) u).
Proof.
  intros IH C Z S k u I. apply (good_entry m ps cs d k u IH S); [|exact I]. intros a A _. cbn [check] in C. rewrite forallb_forall in C. split; [exact (C a A)|].
  exact (sized_alt m declared ps a Z A).
Qed.

Lemma extra_not n k v : negb (inb k special_keys) = true -> extra' n k v.
Proof. intros H. apply extra_none. now apply negb_true_iff. Qed.
(** No special key has a value without structure, but those of durations. *)
Lemma check_simple n name t : match t with Complex _ _ => False | _ => True end -> check_extra n name t = true ->
  (duration_key (fkey name) = true /\ duration_ty name t = true) \/ negb (inb (fkey name) special_keys) = true.
Proof.
  intros T. unfold check_extra. fold (duration_key (fkey name)). change (inb (fkey name) ["duration"; "startafter"; "max_period"; "min_period"]) with (duration_key (fkey name)).
  destruct (duration_key (fkey name)); intros H; [now left|]. right.
  destruct (fkey name =? "target"); [destruct t; try contradiction; rewrite andb_false_r in H; discriminate H|].
  destruct (fkey name =? "uid"); [unfold uid_ty in H; destruct t; try contradiction; rewrite andb_false_r in H; discriminate H|].
  destruct (fkey name =? "payload_float"); [destruct t; try contradiction; discriminate H|].
  destruct (inb (fkey name) ["qualified_event_id"; "event_descriptor"]); [destruct t; try contradiction; discriminate H|].
  destruct (fkey name =? "event"); [destruct t; try contradiction; discriminate H|].
  destruct (describing (fkey name)); [destruct t; try contradiction; discriminate H|].
  destruct (fkey name =? "report_payload"); [destruct t; try contradiction; discriminate H|].
  exact H.
Qed.
Lemma good_scalar n x t : scalar_ty t = true -> valid' x t = true -> readable num (plain_xml x) -> good n x t.
Proof.
  intros S H R. destruct (scalar_value _ _ S H) as (nm & s & -> & E). unfold good. rewrite E. cbn [xml_name]. destruct R as (L & D & _ & _). split.
  - apply (calm_scalar num known _ _ (text_val_scalar _)); now apply legible_text_ok.
  - intros C Z. apply check_simple in C; [|destruct t; try exact I; discriminate S]. destruct C as [[K Y]|C]; [|now apply extra_not].
    apply extra_duration; [exact K|]. left. destruct t as [ds sm| | | |]; try discriminate Y; try discriminate S. destruct ds; [|discriminate S].
    rewrite (Z K [] sm eq_refl) in H. cbn [valid existsb] in H. apply andb_true_iff in H as [_ H].
    assert (B : bounded s) by (apply D; [|reflexivity]; cbn [duration_ty] in Y; now apply inb_in in Y).
    destruct (duration_reads uri s H B) as (z & -> & P). exists z. exact P.
Qed.
Lemma good_anything n x : check known n Anything = true -> valid' x Anything = true -> readable num (plain_xml x) -> good n x Anything.
Proof.
  intros C H R. destruct x as [nm attrs text cs]. cbn [valid] in H. destruct (existsb instance_attribute attrs); [discriminate H|]. destruct cs as [|c cs]; [|discriminate H].
  split.
  - destruct n as [|m]; [discriminate C|]. cbn [check] in C. apply andb_true_iff in C as [_ K]. destruct R as (L & _).
    apply legible_text_ok in L. unfold V. destruct attrs as [|a attrs].
    + cbn [plain_xml map to_val]. apply (calm_scalar num known _ _ (text_val_scalar _)); exact L.
    + assert (E : to_val (plain_xml (Elem nm (a :: attrs) text [])) = VDict (match text_val text with VNone => at_attrs (a :: attrs) | t => push (at_attrs (a :: attrs)) "#text" t end)) by reflexivity.
      rewrite E. clear E. apply calm_dict. intros k u I.
      assert (D0 : forall kv, In kv (at_attrs (a :: attrs)) -> marked (fst kv) = true).
      { intros kv J. apply in_map_iff in J as (b & <- & _). apply marked_at. }
      assert (X : In (k, u) (at_attrs (a :: attrs)) \/ (k = "#text" /\ u = text_val text)).
      { destruct (text_val text) eqn:T; try (rewrite <- (app_nil_r (at_attrs (a :: attrs))), push_after in I by (assumption || reflexivity);
          apply in_app_or in I as [I|[[= <- <-]|[]]]; [now left | now right]). now left. }
      destruct X as [X|[-> ->]]; [left; exact (D0 _ X)|]. right. split; [now apply in_known|]. split; [apply (calm_scalar num known _ _ (text_val_scalar _)); exact L | now apply extra_none].
  - intros E _. apply check_simple in E; [|exact I]. destruct E as [[_ E]|E]; [discriminate E | now apply extra_not].
Qed.

Theorem all_good : forall x n t, valid' x t = true -> readable num (plain_xml x) -> check known n t = true -> sized n t -> good n x t.
Proof.
  fix IH 1. intros x n t H R C Z.
  destruct (scalar_ty t) eqn:ST; [now apply good_scalar|].
  destruct t as [ds sm|sm w|declared ps| |]; try discriminate ST.
  - destruct ds; [discriminate ST|]. destruct n; discriminate C.
  - destruct x as [nm attrs text cs].
    assert (IHc : forall c, In c cs -> forall n t, valid' c t = true -> check known n t = true -> sized n t -> good n c t).
    { assert (RC : forall c, In c cs -> readable num (plain_xml c)) by (intros c Ic; exact (readable_in nm attrs text cs c R Ic)).
      clear - IH RC. induction cs as [|c cs IHcs]; intros d I; [contradiction|]. destruct I as [<-|I].
      - intros n t H C Z. apply IH; try assumption. apply RC. now left.
      - apply IHcs; [intros; apply RC; now right | exact I]. }
    pose proof (check_unmarked _ _ _ C) as U. assert (Z2 := Z). assert (C2 := C).
    destruct n as [|m]; [discriminate C|].
    assert (CALM : calm' (S m) (V (Elem nm attrs text cs))).
    { destruct (shaped_of _ _ _ _ _ _ U H) as [(_ & _ & ->)|(d & -> & S)]; [exact I|]. apply calm_dict. now apply (good_children m declared ps cs). }
    split; [exact CALM|]. intros E SZ. cbn [xml_name] in *. unfold kappa in *. revert E. unfold check_extra.
    change (inb (fkey (plain_name nm)) ["duration"; "startafter"; "max_period"; "min_period"]) with (duration_key (fkey (plain_name nm))).
    destruct (duration_key (fkey (plain_name nm))) eqn:KD.
    { intros E. apply extra_duration; [exact KD|]. right. destruct declared; [|discriminate E]. destruct ps as [|[[alts lo] hi] ps]; [discriminate E|].
      destruct alts as [|[a at'] alts]; [discriminate E|]. destruct at' as [ds sm| | | |]; try discriminate E. destruct ds; [|discriminate E]. destruct alts; [|discriminate E].
      destruct lo as [|[|]]; try discriminate E. destruct hi as [[|[|]]|]; try discriminate E. destruct ps; [|discriminate E]. cbn [duration_ty] in E. apply String.eqb_eq in E.
      destruct (sole_of _ _ _ _ _ _ H) as (c & -> & -> & NM & VC & VE). rewrite VE, E. exists (V c). split; [reflexivity|].
      cbn [check all_alts flat_map p_alts fst snd app forallb] in C2. rewrite !andb_true_iff in C2. destruct C2 as [[[[_ C3] C4] _] _].
      destruct (IHc c (or_introl eq_refl) m (Simple [] sm) VC C3) as [_ Y]; [intros s J; destruct m; contradiction|].
      rewrite NM in Y. specialize (Y C4). unfold kappa in Y. rewrite E in Y. change (fkey "duration") with "duration" in Y.
      assert (X : extra' m "duration" (V c)).
      { apply Y. intros _ ds s [= <- <-]. apply Z2. cbn [lengths all_alts flat_map p_alts fst snd app]. unfold kappa. rewrite E. now left. }
      destruct (x_duration _ _ _ _ X eq_refl) as [D|(w & D & _)]; [exact D|]. exfalso.
      destruct (scalar_value c (Simple [] sm) eq_refl VC) as (? & s & _ & VS). rewrite VS in D. unfold text_val in D. destruct (flatten_xml s); discriminate D. }
    destruct (fkey (plain_name nm) =? "target") eqn:K1.
    { apply String.eqb_eq in K1. rewrite K1. intros E. apply andb_true_iff in E as [E1 E2]. apply Nat.ltb_lt in E1. destruct declared; [|discriminate E2]. apply extra_target.
      destruct (shaped_of _ _ _ _ _ _ U H) as [(_ & _ & ->)|(d & -> & S)]; [left; split; [reflexivity | lia]|]. right. exists d. split; [reflexivity|].
      intros k v J. destruct (sh_from _ _ _ _ _ S J) as [M|(M & l & N & L & _)]; [now left|]. right. destruct l as [|c l]; [contradiction|].
      destruct (L c (or_introl eq_refl)) as [Jc P]. destruct (sh_type _ _ _ S c Jc) as (t & A & _). rewrite forallb_forall in E2. specialize (E2 _ A).
      cbn [fst] in E2. unfold kappa in E2. rewrite P in E2. now apply inb_in. }
    destruct (fkey (plain_name nm) =? "uid") eqn:K2.
    { apply String.eqb_eq in K2. rewrite K2. intros E. unfold uid_ty in E. apply andb_true_iff in E as [E1 E]. apply String.eqb_eq in E1. apply extra_uid.
      destruct declared; [|discriminate E]. destruct ps as [|[[alts lo] hi] ps]; [discriminate E|].
      destruct alts as [|[a at'] alts]; [discriminate E|]. destruct at' as [ds sm| | | |]; try discriminate E. destruct ds; [|discriminate E]. destruct alts; [|discriminate E].
      destruct lo as [|[|]]; try discriminate E. destruct hi as [[|[|]]|]; try discriminate E. destruct ps; [|discriminate E]. apply String.eqb_eq in E.
      destruct (sole_of _ _ _ _ _ _ H) as (c & -> & -> & NM & VC & VE). rewrite VE, E. exists (V c). split; [reflexivity|].
      destruct (scalar_value c (Simple [] sm) eq_refl VC) as (cn & s & -> & VS). rewrite VS.
      destruct R as (_ & _ & R & _). specialize (R E1). cbn [map plain_xml] in R. inversion R as [|? ? R1 _]; subst. cbn [xml_text] in R1.
      specialize (R1 _ (flatten_flattening s)). unfold text_val. assert (R2 := R1). apply looks_int_spec in R2. destruct (flatten_xml s); [discriminate R2 | exact R2]. }
    destruct (fkey (plain_name nm) =? "payload_float") eqn:K3.
    { apply String.eqb_eq in K3. rewrite K3. intros E. apply extra_float. unfold float_ty in E.
      destruct declared; [|discriminate E]. destruct ps as [|[[alts lo] hi] ps]; [discriminate E|].
      destruct alts as [|[a at'] alts]; [discriminate E|]. destruct at' as [ds sm| | | |]; try discriminate E. destruct ds; [|discriminate E].
      destruct sm; try discriminate E. destruct alts; [|discriminate E].
      destruct lo as [|[|]]; try discriminate E. destruct hi as [[|[|]]|]; try discriminate E. destruct ps; [|discriminate E]. apply String.eqb_eq in E.
      destruct (sole_of _ _ _ _ _ _ H) as (c & -> & -> & NM & VC & VE). rewrite VE, E. exists (V c). split; [reflexivity|].
      destruct (scalar_value c (Simple [] Float) eq_refl VC) as (cn & s & -> & VS). rewrite VS. cbn [valid existsb] in VC. apply andb_true_iff in VC as [_ VC].
      destruct (float_reads uri s VC) as [-> M]. cbn [float_good]. now apply floats. }
    destruct (inb (fkey (plain_name nm)) ["qualified_event_id"; "event_descriptor"]) eqn:K4.
    { intros E. apply extra_ids; [now apply inb_in|]. exact (both_of (S m) _ _ _ _ C E H). }
    destruct (fkey (plain_name nm) =? "event") eqn:K5.
    { apply String.eqb_eq in K5. rewrite K5. intros E. apply extra_event. rewrite !andb_true_iff in E. destruct E as [[E1 E2] E3].
      destruct (shaped_required _ _ _ _ _ _ U (needs_required _ _ E2) H) as (d & -> & S). exists d. split; [reflexivity|]. split; [|split].
      - now apply (sh_lacks ps cs).
      - now apply (sh_held ps cs).
      - left. now apply (sh_held ps cs). }
    destruct (describing (fkey (plain_name nm))) eqn:K6.
    { intros E. apply extra_described; [exact K6|]. apply andb_true_iff in E as [E1 E2].
      destruct (shaped_required _ _ _ _ _ _ U E1 H) as (d & -> & S). cbn [items_of]. intros i [<-|[]]. exists d. split; [reflexivity|].
      intros k v J M KN. destruct (sh_from _ _ _ _ _ S J) as [?|(_ & l & N & L & -> & O)]; [congruence|]. destruct l as [|c l]; [contradiction|].
      destruct (L c (or_introl eq_refl)) as [Jc P]. destruct (sh_type _ _ _ S c Jc) as (t & A & VA). unfold described_ty in E2. rewrite forallb_forall in E2. specialize (E2 _ A).
      cbn [fst snd] in E2. unfold kappa in E2. rewrite P in E2. apply inb_in in KN. rewrite KN in E2. cbn [negb orb] in E2. apply andb_true_iff in E2 as [E3 E4].
      destruct (O E4) as [c' X]. injection X as -> ->. cbn [map one_or_list].
      cbn [check] in C2. rewrite forallb_forall in C2. specialize (C2 _ A). rewrite !andb_true_iff in C2. destruct C2 as [[[_ C3] _] _].
      exact (both_of m _ _ _ _ C3 E3 VA). }
    destruct (fkey (plain_name nm) =? "report_payload") eqn:K7.
    { apply String.eqb_eq in K7. rewrite K7. intros E. apply extra_payload. apply andb_true_iff in E as [E1 E2].
      destruct (shaped_required _ _ _ _ _ _ U E1 H) as (d & -> & S). now apply (sh_lacks ps cs). }
    intros E. now apply extra_not.
  - now apply good_anything.
  - exfalso. destruct x as [nm attrs text cs]. cbn [valid] in H. destruct (existsb instance_attribute attrs); discriminate H.
Qed.

(** ** Messages *)
Definition top_alt (m : nat) (ps : list particle) (a : string * ty) : bool :=
  let k := plain_name (fst a) in
  if String.eqb k "oadrPendingReports" then check known m (snd a) && once k ps
  else if inb k ["eiRequestEvent"; "eiCreatedEvent"] then check known m (snd a) && once k ps && match snd a with Complex _ qs => required qs | _ => false end
  else if String.eqb k "oadrEvent" then
    check known m (snd a) && match snd a with Complex _ qs => needs "event" qs && solid_ty "response_required" qs && free ["qualified_event_id"] qs | _ => false end
  else fits_in m ps a.
Definition check_message (m : nat) (t : ty) : bool :=
  match t with Complex _ ps => required ps && unmarked ps && forallb (top_alt m ps) (all_alts ps) | _ => false end.
Theorem message_reads m t x : valid' x t = true -> readable num (plain_xml x) -> check_message m t = true -> sized (S m) t ->
  exists d y, V x = VDict d /\ normalize num (S m) d = Ok y.
Proof.
  intros H R C Z. destruct t as [| |declared ps| |]; try discriminate C. cbn [check_message] in C. rewrite !andb_true_iff in C. destruct C as [[Q U] C].
  destruct x as [nm attrs text cs]. destruct (shaped_required _ _ _ _ _ _ U Q H) as (d & E & S). exists d.
  assert (IHc : forall c, In c cs -> forall n t, valid' c t = true -> check known n t = true -> sized n t -> good n c t).
  { intros c I n t Hv Hc Hz. apply all_good; try assumption. exact (readable_in nm attrs text cs c R I). }
  enough (P : forall kv, In kv d -> passes num m kv).
  { destruct (run_passes num m d P) as [y Y]. exists y. now split. }
  intros [k u] I. destruct (sh_from _ _ _ _ _ S I) as [M|(M & l & N & L & EU & O)]; [now apply passes_marked|].
  rewrite forallb_forall in C.
  assert (T : forall c, In c l -> exists t, In (xml_name c, t) (all_alts ps) /\ valid' c t = true /\ top_alt m ps (xml_name c, t) = true /\ sized m t /\ In c cs /\ plain_name (xml_name c) = k).
  { intros c J. destruct (L c J) as [Jc P]. destruct (sh_type _ _ _ S c Jc) as (t & A & VA). exists t. repeat (split; [first [assumption | exact (C _ A) | exact (proj1 (sized_alt m declared ps _ Z A))]|]). exact P. }
  destruct l as [|c0 l0] eqn:EL; [contradiction|]. rewrite <- EL in *.
  destruct (T c0) as (t0 & A0 & V0 & T0 & Z0 & I0 & P0); [rewrite EL; now left|]. assert (T1 := T0). unfold top_alt in T0. cbn [fst snd] in T0. rewrite P0 in T0.
  destruct (String.eqb k "oadrPendingReports") eqn:K1.
  { apply String.eqb_eq in K1; subst k. apply andb_true_iff in T0 as [T0 O0]. destruct (O O0) as [c E1]. rewrite E1 in EL. injection EL as -> <-. rewrite E1 in EU. cbn [map one_or_list] in EU. subst u.
    apply (passes_pending num known known_good known_rest); [apply V_flat|]. exact (proj1 (IHc c0 I0 m t0 V0 T0 Z0)). }
  destruct (inb k ["eiRequestEvent"; "eiCreatedEvent"]) eqn:K2.
  { rewrite !andb_true_iff in T0. destruct T0 as [[T0 O0] R0]. destruct (O O0) as [c E1]. rewrite E1 in EL. injection EL as -> <-. rewrite E1 in EU. cbn [map one_or_list] in EU. subst u.
    destruct t0 as [| |ds qs| |]; try discriminate R0. pose proof (proj1 (IHc c0 I0 m _ V0 T0 Z0)) as CA. destruct c0 as [n0 a0 x0 cs0].
    destruct (shaped_required _ _ _ _ _ _ (check_unmarked _ _ _ T0) R0 V0) as (d0 & E0 & _). rewrite E0 in CA |- *.
    apply (passes_wrapped num known known_good known_rest); [now apply inb_in | exact CA]. }
  destruct (String.eqb k "oadrEvent") eqn:K3.
  { apply String.eqb_eq in K3; subst k. apply (passes_events num known known_good known_rest).
    assert (F : forall c, In c l -> exists x, V c = VDict x /\ calm' m (V c) /\ eventful x).
    { intros c J. destruct (T c J) as (t & A & VA & TA & ZA & IA & PA). unfold top_alt in TA. cbn [fst snd] in TA. rewrite PA in TA.
      change ("oadrEvent" =? "oadrPendingReports") with false in TA. change (inb "oadrEvent" ["eiRequestEvent"; "eiCreatedEvent"]) with false in TA.
      change ("oadrEvent" =? "oadrEvent") with true in TA. cbv iota in TA. apply andb_true_iff in TA as [TA TB]. pose proof (proj1 (IHc c IA m t VA TA ZA)) as CA.
      destruct t as [| |ds qs| |]; try discriminate TB. rewrite !andb_true_iff in TB. destruct TB as [[B1 B2] B3]. pose proof (check_unmarked _ _ _ TA) as UA. destruct c as [n0 a0 x0 cs0].
      destruct (shaped_required _ _ _ _ _ _ UA (needs_required _ _ B1) VA) as (x & E0 & SX). exists x. split; [exact E0|]. split; [exact CA|]. split; [|split].
      - now apply (sh_held qs cs0).
      - now apply (sh_solid qs cs0).
      - now apply (sh_lacks qs cs0). }
    subst u. intros i J.
    assert (J2 : exists c, In c l /\ V c = i).
    { destruct l as [|a [|b l]]; cbn [map one_or_list] in J.
      - contradiction.
      - exists a. split; [now left|]. pose proof (V_flat a) as FL. destruct (V a); try discriminate FL; destruct J as [J|[]]; exact J.
      - cbn [items_of] in J. change (In i (map V (a :: b :: l))) in J. apply in_map_iff in J as (c & E1 & J). now exists c. }
    destruct J2 as (c & Jc & <-). destruct (F c Jc) as (x & E1 & E2 & E3). now exists x. }
  apply (passes_good num known known_good known_rest).
  all: destruct (good_entry m ps cs d k u IHc S) as [X|(X1 & X2 & X3)]; [ | exact I | congruence | assumption ].
  all: intros a A P; pose proof (C _ A) as CA; unfold top_alt in CA; rewrite P, K1, K2, K3 in CA; split; [exact CA | exact (sized_alt m declared ps a Z A)].
Qed.
End Main.

Lemma messages_good : forallb (fun a => check_message 11 (snd a)) messages = true.
Proof. vm_compute. reflexivity. Qed.
Lemma messages_sized : Forall (fun s => s = xcal_DurationValueType) (flat_map (fun a => lengths 12 (snd a)) messages).
Proof. lazy -[xcal_DurationValueType]. repeat constructor. Qed.

(** At any greater depth. *)
Lemma check_extra_more m name t : check_extra m name t = true -> check_extra (S m) name t = true.
Proof.
  unfold check_extra. destruct (inb (fkey name) ["duration"; "startafter"; "max_period"; "min_period"]); [auto|].
  destruct (String.eqb (fkey name) "target"); [|auto]. rewrite !andb_true_iff. intros [_ H]. now split.
Qed.
Lemma check_more n : forall t, check known n t = true -> check known (S n) t = true.
Proof.
  induction n as [|n IH]; intros t H.
  - destruct t as [ds s| |ds ps| |]; try discriminate H; try reflexivity. destruct ds; [reflexivity | discriminate H].
  - destruct t as [ds s| |ds ps| |]; try exact H. cbn [check] in H. change (check known (S (S n)) (Complex ds ps)) with (forallb (fits_in (S n) ps) (all_alts ps)).
    rewrite forallb_forall in H |- *. intros a I. specialize (H a I). unfold fits_in. rewrite !andb_true_iff in H |- *. destruct H as [[[A B] C] D].
    repeat split; try assumption; [now apply IH | now apply check_extra_more].
Qed.
Lemma lengths_more n : forall t, check known n t = true -> lengths (S n) t = lengths n t.
Proof.
  induction n as [|n IH]; intros t H.
  - destruct t; try reflexivity. discriminate H.
  - destruct t as [ds s| |ds ps| |]; try reflexivity. cbn [check] in H.
    change (lengths (S (S n)) (Complex ds ps)) with (flat_map (fun a => ((if duration_key (kappa (fst a)) then match snd a with Simple _ s => [s] | _ => [] end else []) ++ lengths (S n) (snd a))%list) (all_alts ps)).
    change (lengths (S n) (Complex ds ps)) with (flat_map (fun a => ((if duration_key (kappa (fst a)) then match snd a with Simple _ s => [s] | _ => [] end else []) ++ lengths n (snd a))%list) (all_alts ps)).
    rewrite forallb_forall in H. induction (all_alts ps) as [|a l IHl]; [reflexivity|]. cbn [flat_map]. rewrite IHl by (intros; apply H; now right). f_equal. f_equal.
    apply IH. specialize (H a (or_introl eq_refl)). rewrite !andb_true_iff in H. apply H.
Qed.
Lemma top_checked m ps a : top_alt m ps a = true -> check known m (snd a) = true.
Proof.
  unfold top_alt. destruct (String.eqb _ _); [intros H; now apply andb_true_iff in H|]. destruct (inb _ _); [rewrite !andb_true_iff; tauto|].
  destruct (String.eqb _ _); [intros H; now apply andb_true_iff in H|]. unfold fits_in. rewrite !andb_true_iff. tauto.
Qed.
Lemma top_more m ps a : top_alt m ps a = true -> top_alt (S m) ps a = true.
Proof.
  unfold top_alt, fits_in. pose proof (check_more m (snd a)) as C. pose proof (check_extra_more m (plain_name (fst a)) (snd a)) as E.
  destruct (String.eqb _ _); [rewrite !andb_true_iff; tauto|]. destruct (inb _ ["eiRequestEvent"; "eiCreatedEvent"]); [rewrite !andb_true_iff; tauto|].
  destruct (String.eqb _ _); rewrite !andb_true_iff; tauto.
Qed.
Lemma message_more m t : check_message m t = true -> check_message (S m) t = true /\ lengths (S (S m)) t = lengths (S m) t.
Proof.
  destruct t as [| |ds ps| |]; try discriminate. cbn [check_message]. rewrite !andb_true_iff. intros [[A B] C]. rewrite !forallb_forall in *. split.
  - split; [now split|]. intros a I. apply top_more. now apply C.
  - change (lengths (S (S m)) (Complex ds ps)) with (flat_map (fun a => ((if duration_key (kappa (fst a)) then match snd a with Simple _ s => [s] | _ => [] end else []) ++ lengths (S m) (snd a))%list) (all_alts ps)).
    change (lengths (S m) (Complex ds ps)) with (flat_map (fun a => ((if duration_key (kappa (fst a)) then match snd a with Simple _ s => [s] | _ => [] end else []) ++ lengths m (snd a))%list) (all_alts ps)).
    clear A B. induction (all_alts ps) as [|a l IHl]; [reflexivity|]. cbn [flat_map]. rewrite IHl by (intros; apply C; now right). f_equal. f_equal.
    apply lengths_more. apply (top_checked m ps). apply C. now left.
Qed.
Lemma messages_checked m a : 11 <= m -> In a messages -> check_message m (snd a) = true /\ sized (S m) (snd a).
Proof.
  intros L I. induction L as [|m L IH].
  - split; [exact (proj1 (forallb_forall _ _) messages_good a I)|]. intros s J. apply (proj1 (Forall_forall _ _) messages_sized). apply in_flat_map. now exists a.
  - destruct IH as [C Z]. destruct (message_more m (snd a) C) as [C2 E]. split; [exact C2|]. unfold sized. now rewrite E.
Qed.

Lemma V_last n attrs text c : blank_text text = true -> marked (plain_name (xml_name c)) = false ->
  V (Elem n attrs text [c]) = VDict (at_attrs attrs ++ [(plain_name (xml_name c), V c)])%list.
Proof.
  intros B M. destruct attrs as [|a attrs]; [now apply only_child|].
  assert (E : V (Elem n (a :: attrs) text [c]) = VDict (match text_val text with VNone => push (at_attrs (a :: attrs)) (xml_name (plain_xml c)) (V c) | t => push (push (at_attrs (a :: attrs)) (xml_name (plain_xml c)) (V c)) "#text" t end)) by reflexivity.
  rewrite E, blank_text_val by exact B. rewrite plain_name_of, <- (app_nil_r (at_attrs (a :: attrs))) at 1. rewrite push_after; [reflexivity | | exact M].
  intros kv J. apply in_map_iff in J as (b & <- & _). apply marked_at.
Qed.
Lemma child_one alts (cs : list (string * (ty -> bool))) : children [(alts, 1, Some 1)] cs = true -> exists c t, cs = [c] /\ In (fst c, t) alts /\ snd c t = true.
Proof.
  intros H. assert (T := child_type _ _ H). cbn [children] in H. destruct (span_names (p_alts (alts, 1, Some 1)) cs) as [mine rest] eqn:S. apply span_spec in S as [-> _].
  rewrite !andb_true_iff in H. destruct H as [[E _] R]. destruct rest; [|discriminate R]. rewrite app_nil_r in *. unfold enough in E. cbn [fst snd] in E. apply andb_true_iff in E as [E1 E2].
  apply Nat.leb_le in E1. apply Nat.leb_le in E2. destruct mine as [|c [|]]; cbn [length] in *; try lia. destruct (T c (or_introl eq_refl)) as (t & A & B). exists c, t.
  cbn [all_alts flat_map p_alts fst] in A. rewrite app_nil_r in A. now split.
Qed.
Lemma messages_are : exists declared, oadr_oadrSignedObject_element = Complex declared [(messages, 1, Some 1)].
Proof. eexists. reflexivity. Qed.
Lemma messages_kinds : map (fun a => plain_name (fst a)) messages = kinds.
Proof. vm_compute. reflexivity. Qed.
Lemma kinds_unmarked k : In k kinds -> marked k = false.
Proof. intros I. repeat (destruct I as [<-|I]; [reflexivity|]). destruct I. Qed.
Local Opaque messages oadr_oadrSignedObject_element.

Theorem envelope_reads num uri s x object depth : reads_floats num -> read_expanded s = Some x -> envelope x object -> alone uri object -> readable num (plain_xml object) -> 12 <= depth ->
  exists kind p, In kind kinds /\ parse_message num depth s = Ok (kind, p).
Proof.
  intros F X (attrs & text & signature & -> & B & SG & NO) AL R D. unfold parse_message, read_xml. rewrite X. cbn [option_map].
  rewrite plain_name_of. change (plain_name (xml_name (Elem (in_oadr "oadrPayload") attrs text (signature ++ [object])))) with "oadrPayload".
  change ("oadrPayload" =? "oadrPayload") with true. cbv iota. fold (V (Elem (in_oadr "oadrPayload") attrs text (signature ++ [object]))).
  destruct (entries_of (in_oadr "oadrPayload") attrs text (signature ++ [object]) B) as (d & E & _ & e & -> & ND & G).
  { right. destruct signature; discriminate. }
  { intros c I. apply in_app_or in I as [I|[<-|[]]]; [rewrite (proj1 (Forall_forall _ _) SG c I) | rewrite NO]; reflexivity. }
  rewrite E. assert (VG : vget "oadrSignedObject" (at_attrs attrs ++ e)%list = Some (V object)).
  { rewrite vget_app. assert (VN : vget "oadrSignedObject" (at_attrs attrs) = None).
    { apply vget_none. intros I. apply in_map_iff in I as (kv & K & I). apply in_map_iff in I as (b & <- & _). discriminate K. }
    rewrite VN, G, map_app, called_app, !called_plain. replace (filter (fun c => plain_name (xml_name c) =? "oadrSignedObject") signature) with (@nil xml).
    - cbn [map app filter]. rewrite NO. change (plain_name (in_oadr "oadrSignedObject") =? "oadrSignedObject") with true. reflexivity.
    - clear - SG. induction SG as [|c l H _ IH]; [reflexivity|]. cbn [filter]. rewrite H. change (plain_name (in_ds "Signature") =? "oadrSignedObject") with false. exact IH. }
  rewrite VG. clear E VG ND G e. unfold alone in AL. destruct messages_are as [declared ME]. rewrite ME in AL. destruct object as [on oa ot ocs]. cbn [valid] in AL.
  destruct (existsb instance_attribute oa); [discriminate AL|]. rewrite !andb_true_iff in AL. destruct AL as [[_ OB] OC].
  apply child_one in OC as (c & t & EC & IT & VT). destruct ocs as [|m [|]]; try discriminate EC. cbn [map] in EC. injection EC as <-. cbn [fst snd] in *.
  assert (KI : In (plain_name (xml_name m)) kinds) by (rewrite <- messages_kinds; apply in_map_iff; now exists (xml_name m, t)).
  rewrite (V_last on oa ot m OB (kinds_unmarked _ KI)). unfold last_item. rewrite rev_app_distr. cbn [rev app].
  destruct depth as [|n]; [lia|]. destruct (messages_checked n (xml_name m, t)) as [C Z]; [lia | exact IT|]. cbn [snd] in C, Z.
  destruct (message_reads num uri F n t m VT) as (d & y & -> & E); [exact (readable_in num on oa ot [m] m R (or_introl eq_refl)) | exact C | exact Z |].
  rewrite E. cbn [bind]. exists (plain_name (xml_name m)), y. now split.
Qed.

(** A document that is valid with nothing of other schemas in it. *)
Lemma valid_envelope uri s x : validate_xml_schema uri (fun _ => false) s = Ok x -> read_expanded s = Some x /\ exists object, envelope x object /\ alone uri object.
Proof.
  unfold validate_xml_schema. destruct (read_expanded s) as [y|]; [|discriminate]. destruct (valid_document _ _ _ _ y) eqn:E; [|discriminate]. intros [= ->]. split; [reflexivity|].
  unfold valid_document in E. destruct (xml_name x =? in_oadr "oadrPayload") eqn:N; [|discriminate E]. apply String.eqb_eq in N. destruct x as [n attrs text cs]. cbn [xml_name] in N. subst n.
  unfold oadr_oadrPayload_element in E. cbn [valid] in E. destruct (existsb instance_attribute attrs); [discriminate E|]. rewrite !andb_true_iff in E. destruct E as [[_ B] C].
  assert (T := child_type _ _ C). cbn [children] in C. destruct (span_names (p_alts (opt (in_ds "Signature") Foreign)) (map (fun c => (xml_name c, valid uri (fun _ => false) c)) cs)) as [mine rest] eqn:S.
  apply span_spec in S as [ES S]. rewrite !andb_true_iff in C. destruct C as [[_ F] R].
  destruct mine as [|c mine].
  2:{ exfalso. assert (I : In c (map (fun c => (xml_name c, valid uri (fun _ => false) c)) cs)) by (rewrite ES; now left). apply in_map_iff in I as (y & <- & _).
      cbn [forallb fst snd] in F. apply andb_true_iff in F as [F _]. destruct (S _ (or_introl eq_refl)) as [t ST]. cbn [fst] in ST, F. rewrite ST in F. apply find_name_In in ST as [[= _ <-]|[]].
      destruct y as [a b c0 d]. cbn [valid] in F. destruct (existsb instance_attribute b); discriminate F. }
  cbn [app] in ES. subst rest. change (children [one (in_oadr "oadrSignedObject") oadr_oadrSignedObject_element] (map (fun c => (xml_name c, valid uri (fun _ => false) c)) cs) = true) in R.
  apply child_sole in R as (f & E1 & E2). destruct cs as [|c [|]]; try discriminate E1. cbn [map] in E1. injection E1 as E1 E3. subst f. exists c. split; [|exact E2].
  exists attrs, text, []. repeat (split; [first [reflexivity | assumption | constructor]|]). exact E1.
Qed.

(** Deciding readability, for examples. *)
Definition legibleb (num : numbers) (t : string) : bool :=
  (negb (looks_float (flatten_xml t)) || looks_int (flatten_xml t) || float_ok num (flatten_xml t)) && match parse_datetime (flatten_xml t) with Ok _ => true | Raise _ => false end.
Fixpoint readableb (num : numbers) (x : xml) : bool :=
  match x with
  | Elem n _ t cs =>
    legibleb num t
    && (negb (inb n duration_elements) || match cs with [] => match parse_duration (DText (flatten_xml t)) with Raise OverflowError => false | _ => true end | _ => true end)
    && (negb (String.eqb n "uid") || forallb (fun c => looks_int (flatten_xml (xml_text c))) cs)
    && forallb (readableb num) cs
  end.
Lemma legibleb_spec num t : legibleb num t = true -> legible num t.
Proof.
  unfold legibleb. rewrite andb_true_iff. intros [A B] w F. apply flattening_flatten in F. rewrite F in A, B. split.
  - intros L N. apply looks_float_spec in L. rewrite L in A. destruct (looks_int w) eqn:LI; [apply looks_int_spec in LI; contradiction | exact A].
  - intros y mo d h mi se us T.
    assert (D : possible y mo d h mi se us \/ ~ possible y mo d h mi se us).
    { destruct (fields_ok y mo d h mi se us) eqn:O; [left; now apply fields_ok_iff | right; intros P; apply fields_ok_iff in P; congruence]. }
    destruct D as [D|D]; [exact D|]. rewrite (parse_impossible _ _ _ _ _ _ _ _ T D) in B. discriminate B.
Qed.
Lemma readableb_spec num : forall x, readableb num x = true -> readable num x.
Proof.
  fix IH 1. intros [n attrs t cs]. cbn [readableb readable]. rewrite !andb_true_iff. intros [[[A B] C] D]. split; [now apply legibleb_spec|]. split; [|split].
  - intros I -> w F. apply flattening_flatten in F. apply inb_in in I. rewrite I in B. cbn [negb orb] in B. rewrite F in B. intros E. rewrite E in B. discriminate B.
  - intros ->. rewrite String.eqb_refl in C. cbn [negb orb] in C. apply Forall_forall. intros c I w F. rewrite forallb_forall in C. specialize (C c I).
    apply flattening_flatten in F. rewrite F in C. now apply looks_int_spec.
  - clear - IH D. induction cs as [|c cs IHc]; [exact I|]. cbn [forallb] in D. apply andb_true_iff in D as [D1 D2]. split; [now apply IH | now apply IHc].
Qed.

(** A poll: readable exactly if the id is. *)
Theorem poll_reads num s x object oa pa ot pt t on depth :
  read_expanded s = Some x -> envelope x object -> object = Elem on oa ot [Elem (in_oadr "oadrPoll") pa pt [Elem (in_ei "venID") [] t []]] ->
  blank_text ot = true -> blank_text pt = true ->
  ((exists p, parse_message num (S depth) s = Ok ("oadrPoll", p)) <-> (forall w, flattening t w -> like_number w -> ~ like_integer w -> float_ok num w = true)).
Proof.
  intros X (attrs & text & signature & -> & B & SG & NO) -> OB PB. cbn [xml_name] in NO. subst on. unfold parse_message, read_xml. rewrite X. cbn [option_map].
  rewrite plain_name_of. set (m := Elem (in_oadr "oadrPoll") pa pt [Elem (in_ei "venID") [] t []]). set (object := Elem (in_oadr "oadrSignedObject") oa ot [m]).
  change (plain_name (xml_name (Elem (in_oadr "oadrPayload") attrs text (signature ++ [object])))) with "oadrPayload".
  change ("oadrPayload" =? "oadrPayload") with true. cbv iota. fold (V (Elem (in_oadr "oadrPayload") attrs text (signature ++ [object]))).
  destruct (entries_of (in_oadr "oadrPayload") attrs text (signature ++ [object]) B) as (d & E & _ & e & -> & ND & G).
  { right. destruct signature; discriminate. }
  { intros c I. apply in_app_or in I as [I|[<-|[]]]; [rewrite (proj1 (Forall_forall _ _) SG c I)|]; reflexivity. }
  rewrite E. assert (VG : vget "oadrSignedObject" (at_attrs attrs ++ e)%list = Some (V object)).
  { rewrite vget_app. assert (VN : vget "oadrSignedObject" (at_attrs attrs) = None).
    { apply vget_none. intros I. apply in_map_iff in I as (kv & K & I). apply in_map_iff in I as (b & <- & _). discriminate K. }
    rewrite VN, G, map_app, called_app, !called_plain. replace (filter (fun c => plain_name (xml_name c) =? "oadrSignedObject") signature) with (@nil xml).
    - reflexivity.
    - clear - SG. induction SG as [|c l H _ IH]; [reflexivity|]. cbn [filter]. rewrite H. change (plain_name (in_ds "Signature") =? "oadrSignedObject") with false. exact IH. }
  rewrite VG. clear E VG ND G e. unfold object at 1. rewrite (V_last _ oa ot m OB eq_refl). unfold last_item. rewrite rev_app_distr. cbn [rev app].
  change (plain_name (xml_name m)) with "oadrPoll". unfold m. rewrite V_last by (exact PB || reflexivity). change (plain_name (xml_name (Elem (in_ei "venID") [] t []))) with "venID".
  change (V (Elem (in_ei "venID") [] t [])) with (text_val t).
  assert (NM : forall l (r : vdict) y, (forall kv, In kv l -> marked (fst kv) = true) -> foldM (entry num (normalize num depth)) (l ++ r)%list y = foldM (entry num (normalize num depth)) r y).
  { clear. intros l r y H. induction l as [|[k v] l IH]; [reflexivity|]. cbn [app foldM entry]. pose proof (H (k, v) (or_introl eq_refl)) as M. unfold marked in M. cbn [fst] in M. rewrite M. cbn [bind].
    apply IH. intros; apply H; now right. }
  cbn [normalize]. rewrite NM by (intros kv J; apply in_map_iff in J as (b & <- & _); apply marked_at).
  pose proof (flatten_flattening t) as FT. unfold text_val.
  assert (W : forall w, flattening t w -> w = flatten_xml t) by (intros w F; symmetry; now apply flattening_flatten).
  destruct (flatten_xml t) eqn:FX.
  - split; [intros _ w F L _; rewrite (W w F) in L; apply looks_float_spec in L; discriminate L|]. intros _. eexists. reflexivity.
  - rewrite <- FX in *. clear FX. generalize dependent (flatten_xml t). intros f FT W.
    assert (EV : interpret num (normalize_key "venID") (VStr f) = if String.eqb f "true" || String.eqb f "false" then Ok (VBool (String.eqb f "true")) else if looks_int f then Ok (VInt (int_text f))
                 else if looks_float f then (if float_ok num f then Ok (VFloat f) else Raise ValueError) else Ok (VStr f)) by (apply interpret_text; reflexivity).
    assert (OK : forall v, scalar_val v = true -> interpret num (normalize_key "venID") (VStr f) = Ok v -> exists p, bind (foldM (entry num (normalize num depth)) [("venID", VStr f)] []) (fun d => Ok ("oadrPoll", d)) = Ok ("oadrPoll", p)).
    { intros v SV EQ. cbn [foldM]. rewrite (entry_value num depth [] "venID" (VStr f) v eq_refl) by (rewrite value_scalar by reflexivity; exact EQ).
      change (fkey "venID") with "ven_id". destruct v; try discriminate SV; eexists; reflexivity. }
    destruct (String.eqb f "true" || String.eqb f "false") eqn:TF.
    { split; [|intros _; refine (OK _ _ EV); reflexivity]. intros _ w F L. rewrite (W w F) in L. exfalso. apply looks_float_spec in L. apply orb_true_iff in TF as [TF|TF]; apply String.eqb_eq in TF; subst f; discriminate L. }
    destruct (looks_int f) eqn:LI.
    { split; [|intros _; refine (OK _ _ EV); reflexivity]. intros _ w F _ N. exfalso. apply N. rewrite (W w F). now apply looks_int_spec. }
    destruct (looks_float f) eqn:LF.
    + destruct (float_ok num f) eqn:FO.
      * split; [|intros _; refine (OK _ _ EV); reflexivity]. intros _ w F _ _. now rewrite (W w F).
      * split.
        -- intros [p P]. exfalso. cbn [foldM] in P. unfold entry at 1 in P. change (startswith "@" "venID") with false in P. cbv iota zeta in P. rewrite EV in P. cbn [bind] in P. discriminate P.
        -- intros H. exfalso. assert (float_ok num f = true); [|congruence]. apply H; [exact FT | now apply looks_float_spec | intros LX; apply looks_int_spec in LX; congruence].
    + split; [|intros _; refine (OK _ _ EV); reflexivity]. intros _ w F L _. rewrite (W w F) in L. apply looks_float_spec in L. congruence.
Qed.
