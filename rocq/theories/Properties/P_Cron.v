(** C23: recurring schedules. *)
From Coq Require Import ZArith String List Bool Lia Znumtheory.
From Verif.Base Require Import Result PyStr.
From Verif.Model Require Import Cron.
From Verif.Spec Require Import CronSpec.
From Verif.Proofs Require Import CronProofs.
Local Open Scope string_scope.
Local Open Scope Z_scope.

(** [fires], [usable_field], [divides_clock]: Spec/CronSpec.v.  A timedelta is
    its number of microseconds. *)
Definition schedule_fires (c : cron) (t : Z) : Prop := fires (cron_second c) (cron_minute c) (cron_hour c) t.
Definition usable (c : cron) : Prop :=
  usable_field (cron_second c) /\ usable_field (cron_minute c) /\ usable_field (cron_hour c).

Lemma schedule_fires_every u r t : schedule_fires (cron_config u r) t <-> fires_every u t.
Proof. unfold schedule_fires, fires_every. destruct (fields_no_jitter u r) as (-> & -> & ->). reflexivity. Qed.

Theorem C23_exact_for_divisors :
  forall n r t, divides_clock n -> (schedule_fires (cron_config (n * 1000000) r) t <-> (n | t)).
Proof. intros n r t D. rewrite schedule_fires_every. now apply fires_exactly. Qed.
Print Assumptions C23_exact_for_divisors.

Theorem C23_firings_close_enough :
  forall n r a, 0 < n ->
    let unit := if n <? 60 then 60 else if n <? 3600 then 3600 else 86400 in
    exists t, a < t <= a + unit /\ schedule_fires (cron_config (n * 1000000) r) t.
Proof.
  intros n r a N unit.
  destruct (multiple_in_window unit a) as (t & B & D).
  { unfold unit. destruct (n <? 60), (n <? 3600); lia. }
  exists t. split; [exact B|]. rewrite schedule_fires_every. apply unit_fires; [unfold second_us; lia|].
  unfold unit in D. pose proof unit_values as (_ & -> & ->).
  destruct (Z.ltb_spec n 60), (Z.ltb_spec (n * 1000000) 60000000); try lia; [exact D|].
  destruct (Z.ltb_spec n 3600), (Z.ltb_spec (n * 1000000) 3600000000); try lia; exact D.
Qed.
Print Assumptions C23_firings_close_enough.

Theorem C23_usable :
  forall u r, 0 < u -> (usable (cron_config u r) <-> 1000000 <= u).
Proof.
  intros u r P. unfold usable. destruct (fields_no_jitter u r) as (-> & -> & ->). pose proof unit_values as (S1 & S2 & S3).
  assert (UF : forall s, startswith "*/" s = false -> usable_field s).
  { intros s H ds ->. exfalso. assert (X : startswith "*/" ("*/" ++ ds) = true) by (apply startswith_spec; eauto). congruence. }
  unfold cron_config. cbv zeta. rewrite S2, S3.
  destruct (Z.ltb_spec u 60000000); [|destruct (Z.ltb_spec u 3600000000); [|destruct (Z.ltb_spec u (24 * 3600000000))]];
    cbn [cron_second cron_minute cron_hour].
  - unfold td_seconds_field. rewrite S1.
    assert (0 <= u / 1000000 < 60) by (split; [apply Z.div_pos; lia|apply Z.div_lt_upper_bound; lia]).
    rewrite Z.mod_small by lia. rewrite usable_step by lia. split.
    + intros (L & _). destruct (Z.lt_ge_cases u 1000000); [|lia]. rewrite Z.div_small in L; lia.
    + intros L. split; [apply Z.div_str_pos; lia|]. split; apply UF; reflexivity.
  - rewrite usable_step by (apply Z.quot_pos; lia). split; [lia|]. intros _.
    split; [apply UF; reflexivity|]. split; [|apply UF; reflexivity].
    rewrite Z.quot_div_nonneg by lia. apply Z.div_str_pos; lia.
  - rewrite usable_step by (apply Z.quot_pos; lia). split; [lia|]. intros _.
    split; [apply UF; reflexivity|]. split; [apply UF; reflexivity|].
    rewrite Z.quot_div_nonneg by lia. apply Z.div_str_pos; lia.
  - split; [lia|]. intros _. split; [|split]; apply UF; reflexivity.
Qed.
Print Assumptions C23_usable.

Theorem C23_jitter_bounded :
  forall u, 0 < u ->
    cron_jitter (cron_config u false) = None /\
    exists j, cron_jitter (cron_config u true) = Some j /\ 0 <= j <= 300 /\ j * 10 * 1000000 <= u
      /\ (300 <= j \/ u < (j + 1) * 10 * 1000000).
Proof.
  intros u P.
  assert (J : forall r, cron_jitter (cron_config u r) = if r then Some (Z.min (Z.quot u (10 * second_us)) 300) else None).
  { intros r. unfold cron_config. cbv zeta. destruct (u <? minute_us); [|destruct (u <? hour_us); [|destruct (u <? 24 * hour_us)]]; reflexivity. }
  rewrite !J. split; [reflexivity|]. eexists; split; [reflexivity|]. unfold second_us.
  rewrite Z.quot_div_nonneg by lia. pose proof (Z.div_mod u (10 * 1000000)). pose proof (Z.mod_pos_bound u (10 * 1000000)). lia.
Qed.
Print Assumptions C23_jitter_bounded.

(** The title taken literally - consecutive firings are never closer than the
    interval - holds for no other whole-second interval than the divisors:
    7 s, 90 s, 5 h or a week all fire early. *)
Theorem C23_never_early_iff_divisor :
  forall n r, 0 < n ->
    ((forall t1 t2, t1 < t2 -> schedule_fires (cron_config (n * 1000000) r) t1 -> schedule_fires (cron_config (n * 1000000) r) t2 -> n <= t2 - t1)
     <-> divides_clock n).
Proof.
  intros n r P. rewrite <- (spaced_iff n P). split; intros H t1 t2 L F1 F2.
  - apply H; try assumption; now apply schedule_fires_every.
  - apply H; try assumption; now apply schedule_fires_every in F1, F2.
Qed.
Print Assumptions C23_never_early_iff_divisor.

Definition C23_never_early_full : Prop :=
  forall n r t1 t2, 0 < n -> t1 < t2 -> schedule_fires (cron_config (n * 1000000) r) t1 ->
    schedule_fires (cron_config (n * 1000000) r) t2 -> n <= t2 - t1.

Theorem C23_never_early_refuted : ~ C23_never_early_full.
Proof.
  intros H. assert (D : divides_clock 7) by (apply (C23_never_early_iff_divisor 7 false); [lia|]; intros; eapply H; eauto; lia).
  destruct D as (_ & [[k K]|[(m & K & _)|(h & K & _)]]); lia.
Qed.
Print Assumptions C23_never_early_refuted.

Example C23_example :
  divides_clock 15 /\ divides_clock 900 /\ divides_clock 86400 /\
  cron_config (15 * 1000000) true = {| cron_second := "*/15"; cron_minute := "*"; cron_hour := "*"; cron_jitter := Some 1 |} /\
  cron_config (900 * 1000000) true = {| cron_second := "0"; cron_minute := "*/15"; cron_hour := "*"; cron_jitter := Some 90 |} /\
  schedule_fires (cron_config (7 * 1000000) false) 56 /\ schedule_fires (cron_config (7 * 1000000) false) 60.
Proof.
  repeat split; try reflexivity; try lia.
  - left. exists 4. reflexivity.
  - right; left. exists 15. split; [reflexivity|]. exists 4. reflexivity.
  - right; right. exists 24. split; [reflexivity|]. exists 1. reflexivity.
  - apply (selects_step 7 56); [lia|]. split; [lia|]. exists 8. reflexivity.
  - constructor.
  - constructor.
  - apply (selects_step 7 0); [lia|]. split; [lia|]. exists 0. reflexivity.
  - constructor.
  - constructor.
Qed.
