(** C10, C11: durations.  A timedelta is its number of microseconds. *)
From Coq Require Import ZArith String Ascii Bool Lia.
From Verif.Base Require Import Result PyStr.
From Verif.Model Require Import Duration.
From Verif.Spec Require Import Rfc5545.
From Verif.Proofs Require Import DurationProofs.
Local Open Scope string_scope.
Local Open Scope Z_scope.

(** The timedeltas Python can represent: -999999999 <= days <= 999999999. *)
Definition representable (td : Z) : Prop :=
  -999999999 * 86400000000 <= td < 1000000000 * 86400000000.

Lemma representable_valid td : representable td <-> td_valid td = true.
Proof.
  unfold representable, td_valid, td_days.
  rewrite andb_true_iff, !Z.leb_le. change us_per_day with 86400000000.
  pose proof (Z.div_mod td 86400000000). pose proof (Z.mod_pos_bound td 86400000000). lia.
Qed.

(** ** C10, full statement: every timedelta survives formatting and parsing. *)
Definition C10_full : Prop :=
  forall td, representable td -> parse_duration (DText (timedeltaformat td)) = Ok td.

(** False: negative durations come back as zero, fractions of a second are dropped. *)
Theorem C10_duration_round_trip_refuted : ~ C10_full.
Proof.
  intros H. specialize (H (-1000000)). assert (R : representable (-1000000)) by (split; reflexivity || discriminate).
  specialize (H R). vm_compute in H. discriminate.
Qed.
Print Assumptions C10_duration_round_trip_refuted.

(** What does hold, for every timedelta: exactly the non-negative whole-second
    ones survive. *)
Theorem C10_duration_round_trip_partial :
  forall td, representable td ->
    (parse_duration (DText (timedeltaformat td)) = Ok td <-> 0 <= td /\ td mod 1000000 = 0).
Proof.
  intros td R. apply representable_valid in R. rewrite (parse_format td R).
  change us_per_s with 1000000. destruct (Z.ltb_spec td 0).
  - split; [intros E; injection E; lia | lia].
  - split.
    + intros E. injection E as E. lia.
    + intros [_ E]. rewrite E. f_equal. lia.
Qed.
Print Assumptions C10_duration_round_trip_partial.

(** And what any other timedelta turns into. *)
Theorem C10_duration_round_trip_value :
  forall td, representable td ->
    parse_duration (DText (timedeltaformat td)) =
      Ok (if td <? 0 then 0 else td - td mod 1000000).
Proof. intros td R. apply parse_format. now apply representable_valid. Qed.
Print Assumptions C10_duration_round_trip_value.

(** Two whole-second, non-negative durations never share a text. *)
Theorem C10_format_injective :
  forall a b, representable a -> representable b -> 0 <= a -> 0 <= b ->
    a mod 1000000 = 0 -> b mod 1000000 = 0 ->
    timedeltaformat a = timedeltaformat b -> a = b.
Proof.
  intros a b Ra Rb Ha Hb Ma Mb E.
  assert (Ea : parse_duration (DText (timedeltaformat a)) = Ok a) by (apply C10_duration_round_trip_partial; auto).
  assert (Eb : parse_duration (DText (timedeltaformat b)) = Ok b) by (apply C10_duration_round_trip_partial; auto).
  congruence.
Qed.
Print Assumptions C10_format_injective.

Example C10_example :
  representable (93784 * 1000000) /\ 0 <= 93784 * 1000000 /\ (93784 * 1000000) mod 1000000 = 0
  /\ timedeltaformat (93784 * 1000000) = "P1DT2H3M4S".
Proof. unfold representable. repeat split; (lia || reflexivity). Qed.

(** ** C11, full statement: every RFC 5545 duration (weeks = true: dur-week
    form; weeks = false: the other forms) is read as its value. *)
Definition C11_full : Prop :=
  forall weeks s v, rfc_duration weeks s v -> Z.abs v < 999999999 * 86400 ->
    parse_duration (DText s) = Ok (v * 1000000).

Theorem C11_rfc5545_refuted : ~ C11_full.
Proof.
  intros H. specialize (H true "P2W" 1209600).
  assert (R : rfc_duration true "P2W" 1209600).
  { apply (rd_plain true "2W" 1209600). apply rb_week. apply (dw_W "2" 2). constructor. constructor. }
  specialize (H R eq_refl). vm_compute in H. discriminate.
Qed.
Print Assumptions C11_rfc5545_refuted.

(** Everything but the week form. *)
Theorem C11_rfc5545_partial :
  forall s v, rfc_duration false s v -> Z.abs v < 999999999 * 86400 ->
    parse_duration (DText s) = Ok (v * 1000000).
Proof. intros s v H B. apply parse_iso; [now apply rfc_iso | assumption]. Qed.
Print Assumptions C11_rfc5545_partial.

(** With ISO years (365 days) and months (30 days) in front. *)
Theorem C11_iso_years_months :
  forall s v, iso_duration s v -> Z.abs v < 999999999 * 86400 ->
    parse_duration (DText s) = Ok (v * 1000000).
Proof. exact parse_iso. Qed.
Print Assumptions C11_iso_years_months.

(** Every duration in the week form is read as zero, without an error. *)
Theorem C11_weeks_read_as_zero :
  forall s v, rfc_duration true s v -> parse_duration (DText s) = Ok 0.
Proof. exact parse_week. Qed.
Print Assumptions C11_weeks_read_as_zero.

(** ValueError exactly for text that begins with neither P, +P, -P nor a
    number followed by W. *)
Theorem C11_value_error_iff :
  forall s, parse_duration (DText s) = Raise ValueError <->
    ~ ((exists r, s = "P" ++ r) \/ (exists r, s = "+P" ++ r) \/ (exists r, s = "-P" ++ r)
       \/ exists n v r, number n v /\ s = n ++ "W" ++ r).
Proof. exact parse_error_iff. Qed.
Print Assumptions C11_value_error_iff.

(** A timedelta is passed through. *)
Theorem C11_timedelta_identity : forall td, parse_duration (DTd td) = Ok td.
Proof. reflexivity. Qed.
Print Assumptions C11_timedelta_identity.

Example C11_example :
  rfc_duration false "-P3DT4H0M12S" (-273612) /\ Z.abs (-273612) < 999999999 * 86400
  /\ iso_duration "P1Y2M3DT30M" ((365 * 86400 * 1 + (30 * 86400 * 2 + 86400 * 3)) + 60 * 30).
Proof.
  assert (D : forall c v, digit c v -> number (String c "") v) by (intros; now constructor).
  split; [|split; [reflexivity|]].
  - apply (rd_minus false "3DT4H0M12S" 273612). apply rb_date.
    apply (dd_daytime "3D" (86400 * 3) "T4H0M12S" (3600 * 4 + (60 * 0 + 12))).
    + apply (dd_D "3" 3). apply D. constructor.
    + apply (dti_hour "4H0M12S"). apply (dh_HM "4" 4 "0M12S"); [apply D; constructor|].
      apply (dm_MS "0" 0 "12S"); [apply D; constructor|]. apply (ds_S "12" 12).
      apply (num_snoc "1" 1 "2"%char 2); [apply D; constructor|constructor].
  - apply (is_plain "1Y2M3DT30M"). apply (ib_datetime "1Y2M3D" _ "T30M").
    + apply (iy_year "1" 1 "2M3D"); [apply D; constructor|].
      apply (im_month "2" 2 "3D"); [apply D; constructor|]. apply id_day.
      apply (dd_D "3" 3). apply D; constructor.
    + apply (dti_minute "30M"). apply (dm_M "30" 30).
      apply (num_snoc "3" 3 "0"%char 0); [apply D; constructor|constructor].
Qed.
