(** What is in a message that the schema allows, once it was parsed. *)
From Coq Require Import ZArith String Ascii List Bool Lia Arith.
From Verif.Base Require Import Result Dict PyStr ListExtra.
From Verif.Model Require Import Duration DateTime Text Normalize Xml XmlText Schema SchemaTypes.
From Verif.Model Require Import Polled.
From Verif.Spec Require Import Timestamp TextSpec MessageSpec ReadableSpec PolledSpec.
From Verif.Proofs Require Import DateTimeProofs TextProofs NormalizeProofs CalmProofs ReadableProofs MemberProofs EventMemberProofs.
Import ListNotations.
Local Open Scope string_scope.

(** ** Requests for reports *)
Section Requests.
Context (num : numbers).
Local Notation nz := (normalize num).
Local Notation carried := (carried num).
Local Notation steady := (steady num).
Local Notation becomes := (becomes num).

Definition specified_keys : list string := (["r_id"; "reading_type"; "currency_per_kw"; "gbdata_description"] ++ measurement_namespaces)%list.
Definition specified_fields : list field := [a_scalar "r_id" anything].
Definition specified (v : val) : Prop := like specified_keys specified_fields v.
Lemma carried_specified : Forall carried specified_fields.
Proof. constructor; [now apply carried_scalar | constructor]. Qed.
Lemma steady_specified : steady specified.
Proof. apply steady_like; [vm_compute; reflexivity | apply carried_specified | vm_compute; reflexivity]. Qed.
Lemma becomes_specified : becomes specified (settled specified_keys specified_fields).
Proof. apply becomes_settled; [vm_compute; reflexivity | apply carried_specified | vm_compute; reflexivity]. Qed.

Definition spec_keys : list string := ["report_specifier_id"; "granularity"; "report_back_duration"; "specifier_payload"; "specifier_payloads"].
Definition spec_fields (W : Prop) : list field :=
  [a_scalar "report_specifier_id" (fun u => W -> worded u); a_span "granularity"; a_span "report_back_duration"; a_list "specifier_payload" specified (settled specified_keys specified_fields)].
Definition timed_keys : list string := "report_interval" :: spec_keys.
Definition timed_fields (W : Prop) : list field := a_period "report_interval" False :: spec_fields W.
Definition specifier (W : Prop) (v : val) : Prop := like spec_keys (spec_fields W) v \/ like timed_keys (timed_fields W) v.
Lemma carried_spec W : Forall carried (spec_fields W).
Proof.
  constructor; [|constructor; [now apply carried_span|]; constructor; [now apply carried_span|]; constructor; [apply carried_list; [now left | apply steady_specified | apply becomes_specified] | constructor]].
  apply carried_scalar; [reflexivity | reflexivity|]. intros u w _ Q I HW. rewrite (worded_stays num "report_specifier_id" u w eq_refl eq_refl (Q HW) I). exact (Q HW).
Qed.
Lemma carried_timed W : Forall carried (timed_fields W).
Proof. constructor; [now apply carried_period | apply carried_spec]. Qed.
Lemma steady_spec W : steady (specifier W).
Proof.
  assert (A : steady (like spec_keys (spec_fields W))) by (apply steady_like; [vm_compute; reflexivity | apply carried_spec | vm_compute; reflexivity]).
  assert (B : steady (like timed_keys (timed_fields W))) by (apply steady_like; [vm_compute; reflexivity | apply carried_timed | vm_compute; reflexivity]).
  split.
  - intros v [H|H]; [exact (proj1 A v H) | exact (proj1 B v H)].
  - intros m x y [H|H] N; [left; exact (proj2 A m x y H N) | right; exact (proj2 B m x y H N)].
Qed.
Definition spec_read (W : Prop) (v : val) : Prop := reads spec_keys (spec_fields W) v \/ reads timed_keys (timed_fields W) v.
Lemma becomes_spec W : becomes (specifier W) (spec_read W).
Proof.
  intros m x y [H|H] N; [left | right].
  - exact (becomes_reads num spec_keys (spec_fields W) ltac:(vm_compute; reflexivity) (carried_spec W) ltac:(vm_compute; reflexivity) m x y H N).
  - exact (becomes_reads num timed_keys (timed_fields W) ltac:(vm_compute; reflexivity) (carried_timed W) ltac:(vm_compute; reflexivity) m x y H N).
Qed.
Lemma spec_compact W m x y : specifier W (VDict x) -> nz m x = Ok y -> compact y = true /\ fixed y.
Proof.
  intros [P|P] N.
  - apply (like_compact num spec_keys (spec_fields W) m x y (a_span "granularity") (a_span "report_back_duration"));
      [vm_compute; reflexivity | apply carried_spec | vm_compute; reflexivity | right; now left | right; right; now left | discriminate | reflexivity | exact P | exact N].
  - apply (like_compact num timed_keys (timed_fields W) m x y (a_span "granularity") (a_span "report_back_duration"));
      [vm_compute; reflexivity | apply carried_timed | vm_compute; reflexivity | right; right; now left | right; right; right; now left | discriminate | reflexivity | exact P | exact N].
Qed.
Definition request_keys : list string := ["report_request_id"; "report_specifier"].
Definition request_fields (W : Prop) : list field := [a_scalar "report_request_id" anything; a_dict "report_specifier" (specifier W) (spec_read W)].
Definition request (W : Prop) (v : val) : Prop := like request_keys (request_fields W) v.
Lemma carried_request W : Forall carried (request_fields W).
Proof. constructor; [now apply carried_scalar|]. constructor; [|constructor]. apply carried_dict; [now left | reflexivity | apply steady_spec | apply becomes_spec | apply spec_compact]. Qed.
Lemma steady_request W : steady (request W).
Proof. apply steady_like; [vm_compute; reflexivity | apply carried_request | vm_compute; reflexivity]. Qed.
Definition request_read (W : Prop) : val -> Prop := settled request_keys (request_fields W).
Lemma becomes_request W : becomes (request W) (request_read W).
Proof. apply becomes_settled; [vm_compute; reflexivity | apply carried_request | vm_compute; reflexivity]. Qed.

(** One id or several *)
Definition some_id (C : Prop) (u : val) : Prop := (scalar_val u = true \/ exists l, u = VList l /\ Forall (fun i => scalar_val i = true) l) /\ (C -> scalar_val u = true).
Definition an_id (q : string) (C : Prop) : field := mk_field q [q] (fun _ u => some_id C u) (some_id C).
Lemma carried_id q C : general_key q = true -> leaf_key q = true -> carried (an_id q C).
Proof.
  intros G L m k u new M E [S|[]] [F H] (v & VV & MA). cbn [fst snd f_src f_out f_kind an_id] in *. rewrite E, <- S in *.
  assert (X : some_id C v).
  { destruct F as [SC|(l & -> & FL)].
    - rewrite value_scalar in VV by exact SC. pose proof (interpret_scalar num q u v SC VV) as SV. split; [now left | now intros _].
    - cbn [value_of] in VV. destruct (mapM _ l) as [l'|] eqn:ML; [|discriminate VV]. injection VV as <-. split; [|intros c; now specialize (H c)]. right. exists l'. split; [reflexivity|].
      clear - ML FL. revert l' ML. induction FL as [|i l SI FL IH]; intros l' ML; cbn [mapM] in ML; [injection ML as <-; constructor|].
      destruct i; try discriminate SI; cbn [bind] in ML; (destruct (mapM _ l) as [r|]; [|discriminate ML]); cbn [bind] in ML; injection ML as <-; constructor; auto. }
  rewrite made_leaf in MA; [|assumption|assumption|]. 2:{ destruct X as [[X|(l & -> & _)] _]; [now destruct v | reflexivity]. }
  injection MA as <-. split; [apply vmem_one|]. intros q' w [[= <- <-]|[]] _. split; [exact X | intros _; exact X].
Qed.
End Requests.

(** ** From elements to dicts *)
Lemma everywhere_here P x : everywhere P x -> P x.
Proof. destruct x. cbn. tauto. Qed.
Lemma everywhere_in P n a t cs c : everywhere P (Elem n a t cs) -> In c cs -> everywhere P c.
Proof. cbn. intros [_ H]. revert H. induction cs as [|c' cs IH]; [intros _ []|]. intros [A B] [->|I]; [exact A | now apply IH]. Qed.
Lemma everywhere_if (A : Prop) P x : (A -> everywhere P x) -> everywhere (fun c => A -> P c) x.
Proof.
  revert x. fix IH 1. intros [n a t cs] H. cbn. split.
  - intros HA. exact (everywhere_here _ _ (H HA)).
  - assert (G : A -> forall c, In c cs -> everywhere P c) by (intros HA c; exact (everywhere_in _ _ _ _ _ c (H HA))). clear H. induction cs as [|c cs IH2]; [exact I|]. split.
    + apply IH. intros HA. apply (G HA). now left.
    + apply IH2. intros HA c' J. apply (G HA). now right.
Qed.
Lemma everywhere_and P Q x : everywhere P x -> everywhere Q x -> everywhere (fun c => P c /\ Q c) x.
Proof.
  revert x. fix IH 1. intros [n a t cs] H K. cbn. split; [split; now apply everywhere_here|].
  assert (G : forall c, In c cs -> everywhere P c /\ everywhere Q c) by (intros c J; split; now apply (everywhere_in _ n a t cs)). clear H K. induction cs as [|c cs IH2]; [exact I|]. split.
  - apply IH; apply (G c); now left.
  - apply IH2. intros c' J. apply G. now right.
Qed.

Section Elements.
Context (uri : string -> bool).
Local Notation valid' := (valid uri (fun _ => false)).

Definition within_keys (ks : list string) (ps : list particle) : bool := forallb (fun a => inb (kappa (fst a)) ks) (all_alts ps).
Lemma shaped_only ps cs d ks : shaped uri ps cs d -> within_keys ks ps = true -> only ks d.
Proof.
  intros S F k v I. destruct (sh_from _ _ _ _ _ _ S I) as [M|(M & l & N & L & _)]; [now left|]. right. destruct l as [|c l]; [contradiction|].
  destruct (L c (or_introl eq_refl)) as [J K]. destruct (sh_type _ _ _ _ S c J) as (t & A & _). unfold within_keys in F. rewrite forallb_forall in F. specialize (F _ A).
  cbn [fst] in F. unfold kappa in F. rewrite K in F. now apply inb_in in F.
Qed.
(** The children that lead to a member, all of one name and type *)
Definition leads (ps : list particle) (f : field) (nm : string) (T : ty) : Prop := filter (fun a => inb (kappa (fst a)) (f_src f)) (all_alts ps) = [(nm, T)].
Lemma held_has ps cs d f nm T : shaped uri ps cs d -> held (kappa nm) d -> leads ps f nm T -> normalize_key (plain_name nm) = kappa nm ->
  (forall l, l <> [] -> (forall c, In c l -> In c cs /\ xml_name c = nm /\ valid' c T = true) -> (once (plain_name nm) ps = true -> exists c, l = [c]) -> f_kind f (kappa nm) (one_or_list (map V l))) -> has d f.
Proof.
  intros S N L NK K. assert (IN : In (kappa nm) (f_src f)).
  { assert (J : In (nm, T) (filter (fun a => inb (kappa (fst a)) (f_src f)) (all_alts ps))) by (rewrite L; now left). apply filter_In in J as [_ J]. now apply inb_in in J. }
  split.
  - destruct N as (k & v & I & M & E). exists k, v. split; [exact I|]. split; [exact M|]. now rewrite E.
  - intros k u I M J. destruct (sh_from _ _ _ _ _ _ S I) as [?|(_ & l & NE & LL & -> & O)]; [congruence|].
    assert (A : forall c, In c l -> In c cs /\ xml_name c = nm /\ valid' c T = true).
    { intros c Jc. destruct (LL c Jc) as [Ic P]. destruct (sh_type _ _ _ _ S c Ic) as (t & At & Vt). assert (Q : In (xml_name c, t) (filter (fun a => inb (kappa (fst a)) (f_src f)) (all_alts ps))).
      { apply filter_In. split; [exact At|]. cbn [fst]. unfold kappa. rewrite P. now apply inb_in. }
      rewrite L in Q. destruct Q as [Q|[]]. injection Q as <- <-. now repeat split. }
    destruct l as [|c l]; [contradiction|]. assert (KE : k = plain_name nm). { destruct (LL c (or_introl eq_refl)) as [_ P]. destruct (A c (or_introl eq_refl)) as (_ & B & _). now rewrite B in P. }
    subst k. change (fkey (plain_name nm)) with (kappa nm). split; [exact NK|]. apply K; [discriminate | exact A | exact O].
Qed.
Lemma shaped_has ps cs d f nm T : shaped uri ps cs d -> unmarked ps = true -> needs (kappa nm) ps = true -> leads ps f nm T -> normalize_key (plain_name nm) = kappa nm ->
  (forall l, l <> [] -> (forall c, In c l -> In c cs /\ xml_name c = nm /\ valid' c T = true) -> (once (plain_name nm) ps = true -> exists c, l = [c]) -> f_kind f (kappa nm) (one_or_list (map V l))) -> has d f.
Proof. intros S U N. exact (held_has ps cs d f nm T S (sh_held _ _ _ _ _ S U N)). Qed.
Lemma held_by ps cs d c : shaped uri ps cs d -> unmarked ps = true -> In c cs -> held (kappa (xml_name c)) d.
Proof.
  intros S U I. destruct (en_held _ _ (sh_entries _ _ _ _ S) c I) as [v J]. exists (plain_name (xml_name c)), v. split; [exact J|]. split; [|reflexivity].
  destruct (sh_type _ _ _ _ S c I) as (t & A & _). unfold unmarked in U. rewrite forallb_forall in U. specialize (U _ A). now apply negb_true_iff in U.
Qed.
Lemma only_without ps cs d ks nm : shaped uri ps cs d -> forallb (fun a => String.eqb (fst a) nm || inb (kappa (fst a)) ks) (all_alts ps) = true -> (forall c, In c cs -> xml_name c <> nm) -> only ks d.
Proof.
  intros S F NN k v I. destruct (sh_from _ _ _ _ _ _ S I) as [M|(M & l & N & L & _)]; [now left|]. right. destruct l as [|c l]; [contradiction|].
  destruct (L c (or_introl eq_refl)) as [J K]. destruct (sh_type _ _ _ _ S c J) as (t & A & _). rewrite forallb_forall in F. specialize (F _ A).
  cbn [fst] in F. unfold kappa in F. rewrite K in F. apply orb_true_iff in F as [F|F]; [apply String.eqb_eq in F; now contradiction (NN c J) | now apply inb_in in F].
Qed.
Lemma named_or_not nm (cs : list xml) : (exists c, In c cs /\ xml_name c = nm) \/ forall c, In c cs -> xml_name c <> nm.
Proof.
  destruct (existsb (fun c => String.eqb (xml_name c) nm) cs) eqn:E.
  - left. apply existsb_exists in E as (c & I & E). apply String.eqb_eq in E. now exists c.
  - right. intros c I N. assert (X : existsb (fun c => String.eqb (xml_name c) nm) cs = true) by (apply existsb_exists; exists c; split; [exact I | now apply String.eqb_eq]). congruence.
Qed.
Lemma has_one ps cs d f nm T : shaped uri ps cs d -> unmarked ps = true -> needs (kappa nm) ps = true -> leads ps f nm T -> normalize_key (plain_name nm) = kappa nm -> once (plain_name nm) ps = true ->
  (forall c, In c cs -> xml_name c = nm -> valid' c T = true -> f_kind f (kappa nm) (V c)) -> has d f.
Proof.
  intros S U N L NK O K. apply (shaped_has ps cs d f nm T S U N L NK). intros l NE A B. destruct (B O) as [c ->]. cbn [map one_or_list]. destruct (A c (or_introl eq_refl)) as (? & ? & ?). now apply K.
Qed.
Lemma has_scalar ps cs d q (Q : val -> Prop) nm T : shaped uri ps cs d -> unmarked ps = true -> needs (kappa nm) ps = true -> leads ps (a_scalar q Q) nm T -> normalize_key (plain_name nm) = kappa nm -> once (plain_name nm) ps = true ->
  scalar_ty T = true -> (forall c, In c cs -> xml_name c = nm -> valid' c T = true -> Q (V c)) -> has d (a_scalar q Q).
Proof.
  intros S U N L NK O ST K. apply (has_one ps cs d (a_scalar q Q) nm T S U N L NK O). intros c I NM VC. split; [|now apply K]. destruct (scalar_value uri c T ST VC) as (n & s & -> & ->). apply text_val_scalar.
Qed.
Lemma all_of (R : val -> Prop) l : l <> [] -> (forall c, In c l -> R (V c)) -> (forall v, R v -> exists x, v = VDict x) -> all_items R (one_or_list (map V l)).
Proof.
  intros NE H D. assert (E : items_of (one_or_list (map V l)) = map V l).
  { destruct l as [|c [|c2 l]]; [contradiction | | reflexivity]. cbn [map one_or_list]. destruct (D _ (H c (or_introl eq_refl))) as [x E]. now rewrite E. }
  split; rewrite E; [now destruct l|]. apply Forall_forall. intros v I. apply in_map_iff in I as (c & <- & I). now apply H.
Qed.
Lemma has_list ps cs d k (R D : val -> Prop) nm T : shaped uri ps cs d -> unmarked ps = true -> needs (kappa nm) ps = true -> leads ps (a_list k R D) nm T -> normalize_key (plain_name nm) = kappa nm -> kappa nm = k -> (k =? k ++ "s") = false ->
  (forall v, R v -> exists x, v = VDict x) -> (forall c, In c cs -> xml_name c = nm -> valid' c T = true -> R (V c)) -> has d (a_list k R D).
Proof.
  intros S U N L NK EK NE DD H. apply (shaped_has ps cs d (a_list k R D) nm T S U N L NK). intros l NL A _. cbn [f_kind a_list]. split.
  - apply all_of; [exact NL | | exact DD]. intros c I. destruct (A c I) as (? & ? & ?). now apply H.
  - rewrite EK. intros E. apply String.eqb_neq in NE. contradiction.
Qed.
Lemma like_of declared ps n a t cs ks fs : unmarked ps = true -> required ps = true -> valid' (Elem n a t cs) (Complex declared ps) = true -> within_keys ks ps = true ->
  (forall d, shaped uri ps cs d -> Forall (has d) fs) -> like ks fs (V (Elem n a t cs)).
Proof.
  intros U R H W K. destruct (shaped_required uri declared ps n a t cs U R H) as (d & E & S). rewrite E. exists d. split; [reflexivity|]. split; [exact (shaped_only ps cs d ks S W) | now apply K].
Qed.
Lemma span_of c : valid' c xcal_DurationPropType = true -> spans (V c).
Proof.
  destruct c as [n a t cs]. intros H. destruct (sole_of uri n a t cs _ _ H) as (c & -> & -> & NM & VC & E). rewrite E. right. exists (V c). split; [reflexivity|].
  destruct (scalar_value uri c _ (eq_refl : scalar_ty (Simple [] xcal_DurationValueType) = true) VC) as (? & s & _ & ->). apply text_val_scalar.
Qed.
Definition nice (Z W : Prop) (c : xml) : Prop := (Z -> in_utc c) /\ (W -> specifier_in_words c).
Lemma start_of Z W c : everywhere (nice Z W) c -> valid' c xcal_dtstart_element = true -> moment (V c) /\ (Z -> timed (V c)).
Proof.
  destruct c as [n a t cs]. intros EV H. destruct (sole_of uri n a t cs _ _ H) as (c & -> & -> & NM & VC & E). rewrite E. change (plain_name (in_xcal "date-time")) with "date-time".
  destruct (scalar_value uri c _ (eq_refl : scalar_ty (Simple [] xcal_DateTimeType) = true) VC) as (n' & s & EC & VS). split.
  - right. exists (V c). split; [reflexivity|]. rewrite VS. apply text_val_scalar.
  - intros HZ. right. pose proof (everywhere_here _ _ (everywhere_in _ _ _ _ _ c EV (or_introl eq_refl))) as [N _]. subst c. cbn [xml_name] in NM. subst n'.
    destruct (N HZ eq_refl (flatten_xml s) (flatten_flattening s)) as (y & mo & d & h & mi & se & us & TS). rewrite VS. unfold text_val.
    pose proof (timestamp_stamp _ _ _ _ _ _ _ _ TS) as PS. destruct (flatten_xml s) as [|ch r] eqn:FE.
    + exfalso. change (parse_datetime "") with (Ok (Unparsed "")) in PS. destruct (mk_datetime _ _ _ _ _ _ _ _); discriminate PS.
    + exists (String ch r). split; [reflexivity|]. intros res P. rewrite PS in P. destruct (mk_datetime _ _ _ _ _ _ _ _) as [dt|]; [|discriminate P]. injection P as <-. now exists dt.
Qed.
Lemma words_of Z W c T : scalar_ty T = true -> everywhere (nice Z W) c -> xml_name c = in_ei "reportSpecifierID" -> valid' c T = true -> W -> worded (V c).
Proof.
  intros ST EV NM VC HW. destruct (scalar_value uri c T ST VC) as (n & s & -> & ->). pose proof (proj2 (everywhere_here _ _ EV) HW NM (flatten_xml s) (flatten_flattening s)) as (A & B & C & D). unfold text_val.
  destruct (flatten_xml s) as [|ch r] eqn:FE; [now contradiction A|]. exists (String ch r). repeat (split; [assumption || reflexivity|]). destruct (looks_float (String ch r)) eqn:LF; [|reflexivity]. exfalso. apply D. now apply looks_float_spec.
Qed.

Ltac leading := vm_compute; reflexivity.
Lemma properties_of Z W c : everywhere (nice Z W) c -> valid' c xcal_properties_element = true -> plain_period Z (V c).
Proof.
  destruct c as [n a t cs]. intros EV H. unfold xcal_properties_element in H.
  eapply like_of; [| |exact H| |]; [reflexivity | reflexivity | reflexivity|]. intros d S. constructor; [|constructor; [|constructor]].
  - eapply (has_one _ cs d (a_start Z) (in_xcal "dtstart") xcal_dtstart_element S); try reflexivity. intros c I _ VC. exact (start_of Z W c (everywhere_in _ _ _ _ _ c EV I) VC).
  - eapply (has_one _ cs d (a_span "duration") (in_xcal "duration") xcal_DurationPropType S); try reflexivity. intros c _ _ VC. exact (span_of c VC).
Qed.
Lemma everywhere_mono (P Q : xml -> Prop) x : (forall c, P c -> Q c) -> everywhere P x -> everywhere Q x.
Proof.
  intros PQ. revert x. fix IH 1. intros [n a t cs] H. cbn. split; [apply PQ; exact (everywhere_here _ _ H)|].
  assert (G : forall c, In c cs -> everywhere P c) by (intros c; exact (everywhere_in _ _ _ _ _ c H)). clear H. induction cs as [|c cs IH2]; [exact I|]. split.
  - apply IH. apply G. now left.
  - apply IH2. intros c' J. apply G. now right.
Qed.
Lemma nice_less Z W c : everywhere (nice Z W) c -> everywhere (nice False W) c.
Proof. apply everywhere_mono. intros x [_ B]. split; [now intros [] | exact B]. Qed.
Lemma active_of Z W c : everywhere (nice Z W) c -> valid' c ei_eiActivePeriodType = true -> period Z (V c).
Proof.
  destruct c as [n a t cs]. intros EV H. right. unfold ei_eiActivePeriodType in H.
  eapply like_of; [| |exact H| |]; [reflexivity | reflexivity | reflexivity|]. intros d S. constructor; [|constructor].
  eapply (has_one _ cs d (a_dict "properties" (plain_period Z) (settled period_keys (period_fields Z))) (in_xcal "properties") xcal_properties_element S); try reflexivity. intros c I _ VC. exact (properties_of Z W c (everywhere_in _ _ _ _ _ c EV I) VC).
Qed.
Lemma interval_of Z W c : everywhere (nice Z W) c -> valid' c xcal_WsCalendarIntervalType = true -> period Z (V c).
Proof.
  destruct c as [n a t cs]. intros EV H. right. unfold xcal_WsCalendarIntervalType in H.
  eapply like_of; [| |exact H| |]; [reflexivity | reflexivity | reflexivity|]. intros d S. constructor; [|constructor].
  eapply (has_one _ cs d (a_dict "properties" (plain_period Z) (settled period_keys (period_fields Z))) (in_xcal "properties") xcal_properties_element S); try reflexivity. intros c I _ VC. exact (properties_of Z W c (everywhere_in _ _ _ _ _ c EV I) VC).
Qed.
Lemma signal_of c : valid' c ei_eiEventSignalType = true -> signal (V c).
Proof.
  destruct c as [n a t cs]. intros H. unfold ei_eiEventSignalType in H.
  eapply like_of; [| |exact H| |]; [vm_compute; reflexivity | reflexivity | vm_compute; reflexivity|]. intros d S. constructor; [|constructor].
  eapply (has_scalar _ cs d "signal_name" anything (in_ei "signalName") (Simple [] ei_signalNameType) S); [reflexivity | reflexivity | reflexivity | reflexivity | reflexivity | reflexivity |]. intros c _ _ _. exact I.
Qed.
Lemma signals_of (num : numbers) c : valid' c ei_eiEventSignalsType = true -> signals (V c).
Proof.
  destruct c as [n a t cs]. intros H. right. unfold ei_eiEventSignalsType in H.
  eapply like_of; [| |exact H| |]; [reflexivity | reflexivity | reflexivity|]. intros d S. constructor; [|constructor].
  eapply (has_list _ cs d "event_signal" signal a_signal (in_ei "eiEventSignal") ei_eiEventSignalType S); try reflexivity. { intros v R. exact (proj1 (steady_signal num) v R). } intros c I _ VC. exact (signal_of c VC).
Qed.
Lemma descriptor_of c : valid' c ei_eventDescriptorType = true -> descriptor (V c).
Proof.
  destruct c as [n a t cs]. intros H. unfold ei_eventDescriptorType in H.
  eapply like_of; [| |exact H| |]; [reflexivity | reflexivity | reflexivity|]. intros d S. constructor; [|constructor; [|constructor; [|constructor]]].
  - eapply (has_scalar _ cs d "event_id" anything (in_ei "eventID") (Simple [] Text) S); try reflexivity; intros c _ _ _; exact I.
  - eapply (has_scalar _ cs d "modification_number" anything (in_ei "modificationNumber") (Simple [] UnsignedInt) S); try reflexivity; intros c _ _ _; exact I.
  - eapply (has_scalar _ cs d "event_status" anything (in_ei "eventStatus") (Simple [] ei_EventStatusEnumeratedType) S); try reflexivity; intros c _ _ _; exact I.
Qed.
Lemma event_of (num : numbers) Z W c : everywhere (nice Z W) c -> valid' c ei_eiEventType = true -> inner_event Z (V c).
Proof.
  destruct c as [n a t cs]. intros EV H. unfold ei_eiEventType in H.
  eapply like_of; [| |exact H| |]; [reflexivity | reflexivity | reflexivity|]. intros d S. constructor; [|constructor; [|constructor; [|constructor]]].
  - eapply (has_one _ cs d (a_dict "event_descriptor" descriptor (settled descriptor_keys descriptor_fields)) (in_ei "eventDescriptor") ei_eventDescriptorType S); try reflexivity. intros c _ _ VC. exact (descriptor_of c VC).
  - eapply (has_one _ cs d (a_period "active_period" Z) (in_ei "eiActivePeriod") ei_eiActivePeriodType S); try reflexivity. intros c I _ VC. exact (active_of Z W c (everywhere_in _ _ _ _ _ c EV I) VC).
  - eapply (has_one _ cs d a_signals (in_ei "eiEventSignals") ei_eiEventSignalsType S); try reflexivity. intros c _ _ VC. exact (signals_of num c VC).
Qed.
Lemma container_of (num : numbers) Z W c : everywhere (nice Z W) c -> valid' c oadr_oadrDistributeEventType_oadrEvent = true -> container Z (V c).
Proof.
  destruct c as [n a t cs]. intros EV H. unfold oadr_oadrDistributeEventType_oadrEvent in H.
  eapply like_of; [| |exact H| |]; [reflexivity | reflexivity | reflexivity|]. intros d S. constructor; [|constructor; [|constructor]].
  - eapply (has_one _ cs d (a_dict "event" (inner_event Z) (settled inner_keys (event_fields Z))) (in_ei "eiEvent") ei_eiEventType S); try reflexivity. intros c I _ VC. exact (event_of num Z W c (everywhere_in _ _ _ _ _ c EV I) VC).
  - eapply (has_scalar _ cs d "response_required" anything (in_oadr "oadrResponseRequired") (Simple [] oadr_ResponseRequiredType) S); try reflexivity; intros c _ _ _; exact I.
Qed.
Lemma specified_of c : valid' c ei_SpecifierPayloadType = true -> specified (V c).
Proof.
  destruct c as [n a t cs]. intros H. unfold ei_SpecifierPayloadType in H.
  eapply like_of; [| |exact H| |]; [vm_compute; reflexivity | reflexivity | vm_compute; reflexivity|]. intros d S. constructor; [|constructor].
  eapply (has_scalar _ cs d "r_id" anything (in_ei "rID") (Simple [] Text) S); [reflexivity | reflexivity | reflexivity | reflexivity | reflexivity | reflexivity |]. intros c _ _ _. exact I.
Qed.
Lemma spec_has (num : numbers) Z W ps cs d : Forall (everywhere (nice Z W)) cs -> ps = match ei_ReportSpecifierType with Complex _ ps => ps | _ => [] end -> shaped uri ps cs d -> Forall (has d) (spec_fields W).
Proof.
  intros EV -> S. rewrite Forall_forall in EV. constructor; [|constructor; [|constructor; [|constructor; [|constructor]]]].
  - eapply (has_scalar _ cs d "report_specifier_id" (fun u => W -> worded u) (in_ei "reportSpecifierID") (Simple [] Text) S); try reflexivity.
    intros c J NM VC. exact (words_of Z W c (Simple [] Text) eq_refl (EV c J) NM VC).
  - eapply (has_one _ cs d (a_span "granularity") (in_xcal "granularity") xcal_DurationPropType S); try reflexivity. intros c _ _ VC. exact (span_of c VC).
  - eapply (has_one _ cs d (a_span "report_back_duration") (in_ei "reportBackDuration") xcal_DurationPropType S); try reflexivity. intros c _ _ VC. exact (span_of c VC).
  - eapply (has_list _ cs d "specifier_payload" specified (settled specified_keys specified_fields) (in_ei "specifierPayload") ei_SpecifierPayloadType S); try reflexivity. { intros v R. exact (proj1 (steady_specified num) v R). } intros c _ _ VC. exact (specified_of c VC).
Qed.
Lemma specifier_of' (num : numbers) Z W c : everywhere (nice Z W) c -> valid' c ei_ReportSpecifierType = true -> specifier W (V c).
Proof.
  destruct c as [n a t cs]. intros EV H. unfold ei_ReportSpecifierType in H. pose proof (fun U R => shaped_required uri _ _ n a t cs U R H) as X. destruct (X eq_refl eq_refl) as (d & E & S). clear X. rewrite E.
  assert (EC : Forall (everywhere (nice Z W)) cs) by (apply Forall_forall; intros c; exact (everywhere_in _ _ _ _ _ c EV)).
  pose proof (spec_has num Z W _ cs d EC eq_refl S) as F. destruct (named_or_not (in_ei "reportInterval") cs) as [(c0 & I0 & N0)|NO].
  - right. exists d. split; [reflexivity|]. split; [apply (shaped_only _ cs d timed_keys S); reflexivity|]. constructor; [|exact F].
    pose proof (held_by _ cs d c0 S eq_refl I0) as HE. rewrite N0 in HE. apply (held_has _ cs d (a_period "report_interval" False) (in_ei "reportInterval") xcal_WsCalendarIntervalType S HE); [reflexivity | reflexivity|].
    intros l NE A B. destruct (B eq_refl) as [c ->]. cbn [map one_or_list]. destruct (A c (or_introl eq_refl)) as (I & _ & VC). rewrite Forall_forall in EC. exact (interval_of False W c (nice_less Z W c (EC c I)) VC).
  - left. exists d. split; [reflexivity|]. split; [|exact F]. apply (only_without _ cs d spec_keys (in_ei "reportInterval") S); [reflexivity | exact NO].
Qed.
Lemma request_of (num : numbers) Z W c : everywhere (nice Z W) c -> valid' c oadr_oadrReportRequestType = true -> request W (V c).
Proof.
  destruct c as [n a t cs]. intros EV H. unfold oadr_oadrReportRequestType in H.
  eapply like_of; [| |exact H| |]; [reflexivity | reflexivity | reflexivity|]. intros d S. constructor; [|constructor; [|constructor]].
  - eapply (has_scalar _ cs d "report_request_id" anything (in_ei "reportRequestID") (Simple [] Text) S); try reflexivity; intros c _ _ _; exact I.
  - eapply (has_one _ cs d (a_dict "report_specifier" (specifier W) (spec_read W)) (in_ei "reportSpecifier") ei_ReportSpecifierType S); try reflexivity. intros c I _ VC. exact (specifier_of' num Z W c (everywhere_in _ _ _ _ _ c EV I) VC).
Qed.
End Elements.
