(** Every message of the package is made of leaves and nodes whose texts are
    those of the user or harmless. *)
From Coq Require Import ZArith String Ascii List Bool Lia.
From Verif.Base Require Import Result Dict PyStr.
From Verif.Model Require Import Text Duration DateTime Normalize Xml XmlParty XmlOpt XmlText.
From Verif.Spec Require Import TextSpec XmlTextSpec WrittenSpec.
From Verif.Proofs Require Import NormalizeProofs TextProofs XmlTextProofs.
Import ListNotations.
Local Open Scope string_scope.

(** ** Harmless texts *)
Definition safe_char (c : ascii) : bool := let n := N_of_ascii c in ((32 <=? n) && negb (n =? 38) && negb (n =? 60) && negb (n =? 62))%N.
Fixpoint safe (s : string) : bool := match s with EmptyString => true | String c r => safe_char c && safe r end.
Lemma safe_app a b : safe (a ++ b) = safe a && safe b.
Proof. induction a as [|c a IH]; [reflexivity|]. cbn [append safe]. now rewrite IH, andb_assoc. Qed.
Lemma digits_safe s : all_digits s = true -> safe s = true.
Proof.
  induction s as [|c s IH]; [reflexivity|]. cbn [all_digits safe]. intros H. apply andb_prop in H as [Hc H]. rewrite IH by exact H. apply is_digit_spec in Hc.
  unfold safe_char. assert (E1 : (32 <=? N_of_ascii c)%N = true) by (apply N.leb_le; lia). rewrite E1.
  assert (E2 : forall k, (k < 48 \/ 57 < k)%N -> (N_of_ascii c =? k)%N = false) by (intros k L; apply N.eqb_neq; lia). rewrite !E2 by lia. reflexivity.
Qed.
Lemma dec_safe n : safe (dec n) = true. Proof. apply digits_safe. now apply dec_acc_digits. Qed.
Lemma pad_safe w n : safe (pad w n) = true.
Proof. unfold pad. rewrite safe_app, dec_safe, digits_safe by apply zeros_digits. reflexivity. Qed.
Lemma str_of_Z_safe z : safe (str_of_Z z) = true.
Proof. unfold str_of_Z. destruct (z <? 0)%Z; [cbn [safe]; rewrite dec_safe; reflexivity|apply dec_safe]. Qed.
Lemma show_time_safe t : safe (show_time t) = true.
Proof.
  unfold show_time, datetimeformat. destruct (to_utc t) as [u|]; [|reflexivity]. unfold strftime_utc. rewrite !safe_app, dec_safe, !pad_safe. reflexivity.
Qed.
Lemma timedelta_safe d : safe (timedeltaformat d) = true.
Proof.
  unfold timedeltaformat. cbv zeta.
  repeat match goal with |- context [if ?b then _ else _] => destruct b end; rewrite ?safe_app, ?str_of_Z_safe; reflexivity.
Qed.
Lemma show_bool_safe b : safe (show_bool b) = true. Proof. destruct b; reflexivity. Qed.

(** ** Elements *)
Fixpoint name_chars (s : string) : bool :=
  match s with
  | EmptyString => true
  | String c r => let n := N_of_ascii c in (((48 <=? n) && (n <=? 57)) || ((65 <=? n) && (n <=? 90)) || ((97 <=? n) && (n <=? 122)) || (n =? 45) || (n =? 46) || (n =? 95))%N && name_chars r
  end.
Definition name_ok (n : string) : bool := negb (n =? "") && name_chars n.
Section Fine.
Context (T N : string -> Prop).
Inductive fine : xml -> Prop :=
| fine_leaf n t : N n -> T t -> fine (leaf n t)
| fine_node n cs : N n -> Forall fine cs -> fine (node n cs).

Context (HT : forall s, safe s = true -> T s).
Context (HN : forall n, name_ok n = true -> N n).

Lemma fine_opt {A} (f : A -> xml) (g : A -> list string) o : (forall a, Forall T (g a) -> fine (f a)) -> Forall T (some g o) -> Forall fine (opt f o).
Proof. destruct o; intros H F; cbn [opt]; constructor; auto. Qed.
Lemma fine_opt_nothing {A} (f : A -> xml) o : (forall a, fine (f a)) -> Forall fine (opt f o).
Proof. destruct o; intros H; cbn [opt]; constructor; auto. Qed.
Lemma fine_opt_both {A} (f : A -> xml) (g h : A -> list string) o : (forall a, Forall T (g a) -> Forall N (h a) -> fine (f a)) -> Forall T (some g o) -> Forall N (some h o) -> Forall fine (opt f o).
Proof. destruct o; intros H F G; cbn [opt]; constructor; auto. Qed.
Lemma fine_map {A} (f : A -> xml) (g : A -> list string) l : (forall a, Forall T (g a) -> fine (f a)) -> Forall T (flat_map g l) -> Forall fine (map f l).
Proof. intros H. induction l as [|a l IH]; cbn [flat_map map]; intros F; constructor; apply Forall_app in F as [F1 F2]; auto. Qed.
Lemma fine_map_both {A} (f : A -> xml) (g h : A -> list string) l : (forall a, Forall T (g a) -> Forall N (h a) -> fine (f a)) -> Forall T (flat_map g l) -> Forall N (flat_map h l) -> Forall fine (map f l).
Proof. intros H. induction l as [|a l IH]; cbn [flat_map map]; intros F G; constructor; apply Forall_app in F as [F1 F2]; apply Forall_app in G as [G1 G2]; auto. Qed.
Lemma fine_one n o : N n -> Forall T (one o) -> Forall fine (opt (leaf n) o).
Proof. intros Hn. apply (fine_opt (leaf n) (fun s => [s])). intros a F. inversion F. now constructor. Qed.
Lemma nonempty_one o : Forall T (one o) -> Forall T (one (nonempty_text o)).
Proof. destruct o as [[|c s]|]; intros H; [constructor|exact H|constructor]. Qed.
Lemma T_nil : T "". Proof. now apply HT. Qed.
Lemma T_number n : Forall T (number_texts n) -> T (show_number n).
Proof. destruct n; intros F; [apply HT, str_of_Z_safe|]. now inversion F. Qed.
Lemma T_text o : Forall T (one o) -> T (text_or_empty o).
Proof. destruct o; intros F; [now inversion F|apply T_nil]. Qed.
Lemma T_printed o : Forall T (one o) -> T (printed o).
Proof. destruct o; intros F; [now inversion F|]. now apply HT. Qed.

(** Take the hypotheses apart, then build the element. *)
Ltac apart := repeat match goal with
  | H : Forall _ (_ ++ _) |- _ => apply Forall_app in H as [? ?]
  | H : Forall _ (_ :: _) |- _ => apply Forall_cons_iff in H as [? ?]
  end.
Ltac fine_step := first
  [ assumption | apply T_nil | (apply HN; reflexivity) | (apply HT; first [apply str_of_Z_safe|apply show_time_safe|apply timedelta_safe|apply show_bool_safe|reflexivity])
  | match goal with |- fine (leaf _ _) => apply fine_leaf end | match goal with |- fine (node _ _) => apply fine_node end | match goal with |- Forall _ [] => apply Forall_nil end | match goal with |- Forall _ (_ :: _) => apply Forall_cons end
  | apply Forall_app; split
  | apply T_number; assumption | apply T_text; assumption | apply T_printed; assumption
  | apply fine_one | apply nonempty_one ].
Ltac build := repeat fine_step.

Lemma payload_fine n x : N n -> Forall T (number_texts x) -> fine (payload_xml n x).
Proof. intros. unfold payload_xml. build. Qed.
Lemma measurement_fine m : Forall T (measurement_texts m) -> Forall N [m_name m] -> fine (measurement_xml m).
Proof.
  unfold measurement_texts, measurement_xml. intros F G. apart. build; [destruct (nonzero (m_pulse_factor m)); build|].
  apply fine_opt_nothing. intros p. build.
Qed.
Lemma target_fine l (f : target -> option string) n : N n -> Forall T (flat_map target_texts l) -> (forall t, incl (one (f t)) (target_texts t)) -> Forall fine (target_xmls n f l).
Proof.
  intros Hn F I. unfold target_xmls. apply Forall_forall. intros x J. apply in_flat_map in J as (t & J & K). destruct (f t) as [[|c s]|] eqn:E; try contradiction.
  destruct K as [<-|[]]. constructor; [exact Hn|]. rewrite Forall_forall in F. apply F, in_flat_map. exists t. split; [exact J|]. apply I. rewrite E. now left.
Qed.
Ltac included := intros t; unfold target_texts; repeat (apply incl_appl, incl_refl || apply incl_refl || apply incl_appr).
Lemma targets_fine l : Forall T (flat_map target_texts l) -> fine (event_target_xml l).
Proof. intros F. unfold event_target_xml. build; (apply target_fine; [apply HN; reflexivity|exact F|included]). Qed.
Lemma source_fine t : Forall T (target_texts t) -> fine (source_xml t).
Proof. unfold target_texts, source_xml. intros F. apart. build. Qed.
Lemma opt_target_fine t : Forall T (target_texts t) -> fine (opt_target_xml t).
Proof. unfold target_texts, opt_target_xml. intros F. apart. build. Qed.
Lemma intervals_fine l : forall i, Forall T (flat_map (fun i => number_texts (i_payload i)) l) -> Forall fine (intervals_xml i l).
Proof.
  induction l as [|x l IH]; intros i F; cbn [intervals_xml flat_map] in *; [constructor|]. apart. constructor; [|now apply IH].
  unfold interval_xml. build; try solve [apply fine_opt_nothing; intros; build]. apply payload_fine; build.
Qed.
Lemma signal_fine s : Forall T (signal_texts s) -> Forall N (measurement_names (s_measurement s)) -> fine (signal_xml s).
Proof.
  unfold signal_texts, signal_xml. intros F G. apart. build.
  - now apply intervals_fine.
  - eapply fine_opt_both; [apply measurement_fine|eassumption|exact G].
  - eapply fine_opt; [|eassumption]. intros a Fa. apply payload_fine; build.
Qed.
Lemma descriptor_fine d : Forall T (descriptor_texts d) -> fine (descriptor_xml d).
Proof. unfold descriptor_texts, descriptor_xml. intros F. apart. build; apply fine_opt_nothing; intros; build. Qed.
Lemma period_fine a : fine (active_period_xml a).
Proof. unfold active_period_xml. build; apply fine_opt_nothing; intros; build. Qed.
Lemma event_fine e : Forall T (event_texts e) -> Forall N (event_names e) -> fine (event_xml e).
Proof.
  unfold event_texts, event_names, event_xml. intros F G. apart. build.
  - now apply descriptor_fine.
  - apply period_fine.
  - eapply fine_map_both; [apply signal_fine|eassumption|exact G].
  - eapply fine_opt; [apply targets_fine|eassumption].
Qed.
Lemma event_response_fine r : Forall T (event_response_texts r) -> fine (event_response_xml r).
Proof. unfold event_response_texts, event_response_xml. intros F. apart. build. Qed.
Lemma report_interval_fine i : Forall T (payload_texts (ri_payload i)) -> fine (report_interval_xml i).
Proof.
  unfold payload_texts, report_interval_xml. intros F. apart. cbv zeta. build; try solve [apply fine_opt_nothing; intros; build];
    (eapply fine_opt; [|eassumption]; intros; cbv beta; build).
Qed.
Lemma report_fine r : Forall T (report_texts r) -> fine (report_xml r).
Proof.
  unfold report_texts, report_xml. intros F. apart. build; try solve [apply fine_opt_nothing; intros; build].
  assert (J : Forall fine (map report_interval_xml (rt_intervals r))) by (eapply fine_map; [apply report_interval_fine|assumption]).
  destruct (rt_intervals r) as [|i l]; build.
Qed.
Lemma answer_fine r : Forall T (answer_texts r) -> fine (answer_xml r).
Proof. unfold answer_texts, answer_xml. intros F. apart. build. Qed.
Lemma answer_tested_fine r : Forall T (answer_texts r) -> fine (answer_tested_xml r).
Proof. unfold answer_texts, answer_tested_xml. intros F. apart. build. Qed.
Lemma profile_fine p : Forall T (pf_name p :: pf_transports p) -> fine (profile_xml p).
Proof.
  unfold profile_xml. intros F. apart. build. apply Forall_forall. intros x J. apply in_map_iff in J as (t & <- & J). unfold transport_xml.
  match goal with H : Forall T (pf_transports p) |- _ => rewrite Forall_forall in H; specialize (H t J) end. build.
Qed.
Lemma description_fine d : Forall T (description_texts d) -> Forall N (measurement_names (rd_measurement d)) -> fine (description_xml d).
Proof.
  unfold description_texts, description_xml. intros F G. apart. build.
  - eapply (fine_opt _ (fun s => [s])); [|apply nonempty_one; eassumption]. intros a Fa. apart. build.
  - eapply fine_opt; [apply source_fine|eassumption].
  - eapply fine_opt_both; [apply measurement_fine|eassumption|exact G].
  - apply fine_opt_nothing. intros. unfold sampling_xml. build.
Qed.
Lemma offer_fine o : Forall T (offer_texts o) -> Forall N (offer_names o) -> fine (offer_xml o).
Proof.
  unfold offer_texts, offer_names, offer_xml. intros F G. apart. build; try solve [apply fine_opt_nothing; intros; build].
  eapply fine_map_both; [apply description_fine|eassumption|exact G].
Qed.
Lemma request_fine r : Forall T (request_texts r) -> fine (report_request_xml r).
Proof.
  unfold request_texts, report_request_xml. intros F. apart. build; try solve [apply fine_opt_nothing; intros; build].
  eapply fine_map; [|eassumption]. intros p Fp. cbv beta in Fp. apart. unfold specifier_payload_xml. build.
Qed.
Lemma ids_fine n l : N n -> Forall T l -> Forall fine (map (leaf n) l).
Proof. intros Hn F. induction F; constructor; [now constructor|assumption]. Qed.
Lemma cancel_fine c : Forall T (cancel_texts c) -> fine (cancel_part_xml c).
Proof. unfold cancel_texts, cancel_part_xml. intros F. apart. build. apply ids_fine; build. Qed.
Lemma opt_targets_fine l : Forall T (flat_map target_texts l) -> Forall fine (opt_targets_xml l).
Proof. intros F. unfold opt_targets_xml. destruct l; build. eapply (fine_map _ target_texts); [apply opt_target_fine|exact F]. Qed.

Theorem sendable_fine n m texts names : sendable n m texts names -> Forall T texts -> Forall N names ->
  exists cs, m = Elem n message_attrs "" cs /\ Forall fine cs.
Proof.
  destruct 1; intros F G; unfold party_texts, created_party_texts, opt_texts in *; apart; eexists; (split; [reflexivity|]); build.
  - eapply fine_opt; [|eassumption]. intros a Fa. cbv beta in Fa. apart. unfold response_xml. build.
  - eapply fine_map_both; [apply event_fine|eassumption|exact G].
  - eapply fine_map; [apply event_response_fine|assumption].
  - eapply fine_map; [apply report_fine|assumption].
  - now apply answer_fine.
  - eapply fine_map; [apply profile_fine|assumption].
  - apply fine_opt_nothing. intros. build.
  - now apply answer_fine.
  - eapply fine_map_both; [apply offer_fine|eassumption|exact G].
  - now apply answer_fine.
  - eapply fine_map; [apply request_fine|assumption].
  - eapply fine_map; [apply request_fine|assumption].
  - now apply answer_fine.
  - apply ids_fine; build.
  - now apply answer_fine.
  - apply ids_fine; build.
  - now apply answer_tested_fine.
  - apply fine_opt_nothing. intros. build.
  - now apply answer_tested_fine.
  - eapply fine_opt; [apply cancel_fine|assumption].
  - apply fine_opt_nothing. intros. build. apply Forall_forall. intros x J. apply in_map_iff in J as (c & <- & _). unfold available_xml. build.
  - eapply fine_opt; [|eassumption]. intros a Fa. cbv beta in Fa. apart. build.
  - now apply opt_targets_fine.
  - eapply (fine_opt _ (fun s => [s])); [|eassumption]. intros a Fa. cbv beta in Fa. apart. build.
  - now apply answer_fine.
  - now apply answer_fine.
Qed.
End Fine.
