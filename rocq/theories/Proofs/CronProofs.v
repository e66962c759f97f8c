From Coq Require Import ZArith String List Bool Lia Znumtheory.
From Verif.Base Require Import Result PyStr.
From Verif.Model Require Import Cron.
From Verif.Spec Require Import CronSpec.
Import ListNotations.
Local Open Scope string_scope.
Local Open Scope Z_scope.
Local Arguments Z.add : simpl never.
Local Arguments Z.mul : simpl never.
Local Arguments Z.sub : simpl never.

Lemma str_of_Z_nonneg n : 0 <= n -> str_of_Z n = dec n.
Proof. intros H. unfold str_of_Z. destruct (Z.ltb_spec n 0); [lia|reflexivity]. Qed.

Lemma selects_any v : selects "*" v <-> True.
Proof. split; [trivial|intros _; constructor]. Qed.

Lemma selects_step n v : 0 <= n -> (selects ("*/" ++ str_of_Z n) v <-> 0 < n /\ (n | v)).
Proof.
  intros N. rewrite str_of_Z_nonneg by assumption. destruct (dec_spec n N) as (D & I & E).
  split.
  - inversion 1; subst.
    + rewrite I in *. auto.
    + discriminate.
  - intros [P Q]. apply sel_step; rewrite ?I; auto.
Qed.

Lemma selects_zero v : selects "0" v <-> v = 0.
Proof.
  split.
  - inversion 1; subst; reflexivity.
  - intros ->. apply (sel_only "0"); [reflexivity|discriminate].
Qed.

Lemma usable_step n : 0 <= n -> (usable_field ("*/" ++ str_of_Z n) <-> 0 < n).
Proof.
  intros N. rewrite str_of_Z_nonneg by assumption. destruct (dec_spec n N) as (D & I & E). split.
  - intros H. destruct (H (dec n) eq_refl) as (_ & _ & P). congruence.
  - intros P ds Eq. apply str_app_inj_l in Eq. subst ds. rewrite I. auto.
Qed.

(** The four regimes, in seconds. *)
Definition fires_every (interval t : Z) : Prop :=
  let c := cron_config interval false in fires (cron_second c) (cron_minute c) (cron_hour c) t.

Lemma fields_no_jitter interval r :
  cron_second (cron_config interval r) = cron_second (cron_config interval false) /\
  cron_minute (cron_config interval r) = cron_minute (cron_config interval false) /\
  cron_hour (cron_config interval r) = cron_hour (cron_config interval false).
Proof.
  unfold cron_config. destruct (interval <? minute_us); [|destruct (interval <? hour_us); [|destruct (interval <? 24 * hour_us)]]; auto.
Qed.

Lemma unit_values : second_us = 1000000 /\ minute_us = 60000000 /\ hour_us = 3600000000.
Proof. repeat split. Qed.

Lemma seconds_regime u t : 0 <= u < minute_us -> (fires_every u t <-> 0 < u / second_us /\ (u / second_us | t mod 60)).
Proof.
  intros U. unfold fires_every, cron_config, fires. cbv zeta. destruct (Z.ltb_spec u minute_us); [|lia].
  cbn [cron_second cron_minute cron_hour].
  unfold td_seconds_field. pose proof unit_values as (-> & E2 & _). rewrite E2 in *.
  assert (0 <= u / 1000000 < 60) by (split; [apply Z.div_pos; lia|apply Z.div_lt_upper_bound; lia]).
  rewrite Z.mod_small by lia. rewrite selects_step, !selects_any by lia. tauto.
Qed.

Lemma minutes_regime u t : minute_us <= u < hour_us ->
  (fires_every u t <-> t mod 60 = 0 /\ (u / minute_us | t / 60 mod 60)).
Proof.
  intros U. unfold fires_every, cron_config, fires. cbv zeta.
  destruct (Z.ltb_spec u minute_us); [lia|]. destruct (Z.ltb_spec u hour_us); [|lia].
  cbn [cron_second cron_minute cron_hour].
  assert (0 < u / minute_us) by (apply Z.div_str_pos; unfold minute_us, second_us in *; lia).
  rewrite Z.quot_div_nonneg by (unfold minute_us, second_us in *; lia).
  rewrite selects_step, selects_any, selects_zero by lia. tauto.
Qed.

Lemma hours_regime u t : hour_us <= u < 24 * hour_us ->
  (fires_every u t <-> t mod 60 = 0 /\ t / 60 mod 60 = 0 /\ (u / hour_us | t / 3600 mod 24)).
Proof.
  intros U. unfold fires_every, cron_config, fires. cbv zeta.
  destruct (Z.ltb_spec u minute_us); [unfold hour_us, minute_us, second_us in *; lia|].
  destruct (Z.ltb_spec u hour_us); [lia|]. destruct (Z.ltb_spec u (24 * hour_us)); [|lia].
  cbn [cron_second cron_minute cron_hour].
  assert (0 < u / hour_us) by (apply Z.div_str_pos; unfold hour_us, second_us in *; lia).
  rewrite Z.quot_div_nonneg by (unfold hour_us, second_us in *; lia).
  rewrite selects_step, !selects_zero by lia. tauto.
Qed.

Lemma days_regime u t : 24 * hour_us <= u ->
  (fires_every u t <-> t mod 60 = 0 /\ t / 60 mod 60 = 0 /\ t / 3600 mod 24 = 0).
Proof.
  intros U. unfold fires_every, cron_config, fires. cbv zeta.
  destruct (Z.ltb_spec u minute_us); [unfold hour_us, minute_us, second_us in *; lia|].
  destruct (Z.ltb_spec u hour_us); [unfold hour_us, second_us in *; lia|]. destruct (Z.ltb_spec u (24 * hour_us)); [lia|].
  cbn [cron_second cron_minute cron_hour]. now rewrite !selects_zero.
Qed.

Lemma divide_mod_unit n u t : 0 < u -> (n | u) -> ((n | t mod u) <-> (n | t)).
Proof.
  intros U [k K]. pose proof (Z.div_mod t u ltac:(lia)) as E. split.
  - intros [j J]. exists (k * (t / u) + j). rewrite E, J, K at 1. ring.
  - intros [j J]. exists (j - k * (t / u)). rewrite J in *. rewrite Z.mul_sub_distr_r. rewrite K in *. lia.
Qed.

Lemma sixty_hour t : t mod 60 = 0 /\ t / 60 mod 60 = 0 <-> (3600 | t).
Proof.
  split.
  - intros [A B]. exists (t / 60 / 60).
    pose proof (Z.div_mod t 60). pose proof (Z.div_mod (t / 60) 60). lia.
  - intros [k ->]. split.
    + replace (k * 3600) with (k * 60 * 60) by ring. apply Z.mod_mul; lia.
    + replace (k * 3600) with (k * 60 * 60) by ring. rewrite Z.div_mul by lia. apply Z.mod_mul; lia.
Qed.

Lemma mul_divide_iff a k n t : 0 < a -> t = a * k -> ((a * n | t) <-> (n | k)).
Proof.
  intros A ->. split; intros [j J].
  - exists j. apply (Z.mul_cancel_l _ _ a); [lia|]. rewrite J. ring.
  - exists j. rewrite J. ring.
Qed.

Lemma fires_exactly n t : divides_clock n -> (fires_every (n * second_us) t <-> (n | t)).
Proof.
  intros (P & D).
  assert (HU : second_us = 1000000) by reflexivity.
  assert (Days : (86400 | t) <-> t mod 60 = 0 /\ t / 60 mod 60 = 0 /\ t / 3600 mod 24 = 0).
  { rewrite and_assoc with (A := t mod 60 = 0) || idtac.
    split.
    - intros [k ->]. assert (X : (3600 | k * 86400)) by (exists (k * 24); ring). apply sixty_hour in X as [X Y].
      repeat split; auto. replace (k * 86400) with (k * 24 * 3600) by ring. rewrite Z.div_mul by lia. apply Z.mod_mul; lia.
    - intros (X & Y & Z0). assert (W : (3600 | t)) by (now apply sixty_hour). destruct W as [k ->].
      rewrite Z.div_mul in Z0 by lia. exists (k / 24). pose proof (Z.div_mod k 24). lia. }
  assert (Hours : forall h, 0 < h -> (h | 24) -> (3600 * h | t) <-> t mod 60 = 0 /\ t / 60 mod 60 = 0 /\ (h | t / 3600 mod 24)).
  { intros h H0 Hd. rewrite divide_mod_unit by (lia || assumption). split.
    - intros H. assert (W : (3600 | t)) by (eapply Z.divide_trans; [|exact H]; apply Z.divide_factor_l).
      pose proof W as V. apply sixty_hour in V as [X Y]. repeat split; auto.
      destruct W as [k ->]. rewrite Z.div_mul by lia. apply (mul_divide_iff 3600 k h (k * 3600)); [lia|ring|assumption].
    - intros (X & Y & Z0). assert (W : (3600 | t)) by (now apply sixty_hour). destruct W as [k ->].
      rewrite Z.div_mul in Z0 by lia. apply (mul_divide_iff 3600 k h (k * 3600)); [lia|ring|assumption]. }
  assert (Minutes : forall m, 0 < m -> (m | 60) -> (60 * m | t) <-> t mod 60 = 0 /\ (m | t / 60 mod 60)).
  { intros m H0 Hd. rewrite divide_mod_unit by (lia || assumption). split.
    - intros H. assert (W : (60 | t)) by (eapply Z.divide_trans; [|exact H]; apply Z.divide_factor_l).
      destruct W as [k ->]. split; [apply Z.mod_mul; lia|].
      rewrite Z.div_mul by lia. apply (mul_divide_iff 60 k m (k * 60)); [lia|ring|assumption].
    - intros (X & Z0). assert (t = 60 * (t / 60)) by (pose proof (Z.div_mod t 60); lia).
      apply (mul_divide_iff 60 (t / 60) m t); [lia|assumption|assumption]. }
  assert (CaseH : forall h, 0 < h -> (h | 24) -> fires_every (3600 * h * second_us) t <-> (3600 * h | t)).
  { intros h H0 Hd. pose proof (Z.divide_pos_le h 24 ltac:(lia) Hd).
    destruct (Z.eq_dec h 24) as [->|NE].
    - rewrite days_regime by (unfold hour_us; lia). change (3600 * 24) with 86400. symmetry. exact Days.
    - rewrite hours_regime by (unfold hour_us; lia). rewrite Hours by assumption.
      replace (3600 * h * second_us) with (h * hour_us) by (unfold hour_us; ring). rewrite Z.div_mul by (unfold hour_us; lia). tauto. }
  assert (CaseM : forall m, 0 < m -> (m | 60) -> fires_every (60 * m * second_us) t <-> (60 * m | t)).
  { intros m H0 Hd. pose proof (Z.divide_pos_le m 60 ltac:(lia) Hd).
    destruct (Z.eq_dec m 60) as [->|NE].
    - change (60 * 60) with (3600 * 1). apply CaseH; [lia|apply Z.divide_1_l].
    - rewrite minutes_regime by (unfold hour_us, minute_us; lia). rewrite Minutes by assumption.
      replace (60 * m * second_us) with (m * minute_us) by (unfold minute_us; ring). rewrite Z.div_mul by (unfold minute_us; lia). tauto. }
  destruct D as [D|[(m & -> & D)|(h & -> & D)]].
  - pose proof (Z.divide_pos_le n 60 ltac:(lia) D).
    destruct (Z.eq_dec n 60) as [->|NE].
    + change 60 with (60 * 1). apply CaseM; [lia|apply Z.divide_1_l].
    + rewrite seconds_regime by (unfold minute_us; lia). rewrite Z.div_mul by lia. rewrite divide_mod_unit by (lia || assumption). tauto.
  - apply CaseM; [lia|assumption].
  - apply CaseH; [lia|assumption].
Qed.

(** Every day-aligned second is a firing of every usable schedule. *)
Lemma unit_fires u t :
  second_us <= u ->
  (if u <? minute_us then 60 else if u <? hour_us then 3600 else 86400 | t) -> fires_every u t.
Proof.
  intros U. pose proof unit_values as (S1 & S2 & S3).
  destruct (Z.ltb_spec u minute_us) as [L|L]; [|destruct (Z.ltb_spec u hour_us) as [L2|L2]]; intros [k ->].
  - apply seconds_regime; [lia|]. split; [apply Z.div_str_pos; lia|]. rewrite Z.mod_mul by lia. apply Z.divide_0_r.
  - apply minutes_regime; [lia|]. replace (k * 3600) with (k * 60 * 60) by ring.
    rewrite Z.div_mul, !Z.mod_mul by lia. split; [reflexivity|apply Z.divide_0_r].
  - replace (k * 86400) with (k * 24 * 3600) by ring.
    assert (X : (3600 | k * 24 * 3600)) by (exists (k * 24); ring). apply sixty_hour in X as [X Y].
    destruct (Z.ltb_spec u (24 * hour_us)).
    + apply hours_regime; [lia|]. repeat split; auto. rewrite Z.div_mul, Z.mod_mul by lia. apply Z.divide_0_r.
    + apply days_regime; [lia|]. repeat split; auto. rewrite Z.div_mul, Z.mod_mul by lia. reflexivity.
Qed.

Lemma multiple_in_window w a : 0 < w -> exists t, a < t <= a + w /\ (w | t).
Proof.
  intros W. exists ((a / w + 1) * w). split; [|apply Z.divide_factor_r].
  pose proof (Z.div_mod a w ltac:(lia)). pose proof (Z.mod_pos_bound a w W). lia.
Qed.

(** A schedule that never fires more often than asked is one of the divisors. *)
Lemma spaced_iff n : 0 < n ->
  ((forall t1 t2, t1 < t2 -> fires_every (n * second_us) t1 -> fires_every (n * second_us) t2 -> n <= t2 - t1) <-> divides_clock n).
Proof.
  intros P. pose proof unit_values as (S1 & S2 & S3). split.
  2:{ intros D t1 t2 L F1 F2. apply fires_exactly in F1 as [a ->]; [|assumption]. apply fires_exactly in F2 as [b ->]; [|assumption]. assert (a < b) by nia. assert (n * 1 <= n * (b - a)) by (apply Z.mul_le_mono_nonneg_l; lia). lia. }
  intros H. split; [assumption|].
  destruct (Z_lt_ge_dec n 60) as [L|L].
  - (* seconds: the last firing of the minute is n * (59/n) *)
    left. set (q := 60 / n). pose proof (Z.div_mod 60 n ltac:(lia)) as E. fold q in E. pose proof (Z.mod_pos_bound 60 n P) as B.
    assert (F60 : fires_every (n * second_us) 60).
    { apply unit_fires; [lia|]. destruct (Z.ltb_spec (n * second_us) minute_us); [apply Z.divide_refl|lia]. }
    destruct (Z.eq_dec (60 mod n) 0) as [Z0|Z0]; [exists q; lia|].
    assert (Fq : fires_every (n * second_us) (n * q)).
    { apply seconds_regime; [lia|]. rewrite Z.div_mul by lia. split; [assumption|].
      rewrite Z.mod_small by (unfold q in *; nia). exists q. ring. }
    specialize (H (n * q) 60 ltac:(lia) Fq F60). lia.
  - destruct (Z_lt_ge_dec n 3600) as [L2|L2].
    + right; left. set (m := n / 60).
      assert (Em : n * second_us / minute_us = m).
      { unfold m. replace minute_us with (60 * second_us) by reflexivity. apply Z.div_mul_cancel_r; lia. }
      pose proof (Z.div_mod n 60 ltac:(lia)) as En. fold m in En. pose proof (Z.mod_pos_bound n 60 ltac:(lia)).
      assert (M : 1 <= m < 60) by (unfold m; split; [apply Z.div_le_lower_bound; lia|apply Z.div_lt_upper_bound; lia]).
      assert (Fj : forall j, 0 <= j -> m * j < 60 -> fires_every (n * second_us) (60 * (m * j))).
      { intros j J1 J2. apply minutes_regime; [lia|]. rewrite Em. rewrite (Z.mul_comm 60), Z.mod_mul, Z.div_mul by lia. split; [reflexivity|].
        rewrite Z.mod_small by nia. apply Z.divide_factor_l. }
      assert (Fh : fires_every (n * second_us) 3600).
      { apply unit_fires; [lia|]. destruct (Z.ltb_spec (n * second_us) minute_us); [lia|]. destruct (Z.ltb_spec (n * second_us) hour_us); [apply Z.divide_refl|lia]. }
      pose proof (Z.div_mod 60 m ltac:(lia)) as E. pose proof (Z.mod_pos_bound 60 m ltac:(lia)). set (q := 60 / m) in *.
      assert (N60 : n mod 60 = 0).
      { assert (0 < 60 * (m * 1) - 60 * (m * 0)) by lia.
        specialize (H (60 * (m * 0)) (60 * (m * 1)) ltac:(lia) (Fj 0 ltac:(lia) ltac:(lia)) (Fj 1 ltac:(lia) ltac:(lia))). lia. }
      exists m. split; [lia|].
      destruct (Z.eq_dec (60 mod m) 0) as [Z0|Z0]; [exists q; lia|].
      specialize (H (60 * (m * q)) 3600 ltac:(lia) (Fj q ltac:(apply Z.div_pos; lia) ltac:(lia)) Fh). lia.
    + right; right.
      assert (Fd : forall k, fires_every (n * second_us) (k * 86400)).
      { intros k. apply unit_fires; [lia|]. destruct (Z.ltb_spec (n * second_us) minute_us); [lia|]. destruct (Z.ltb_spec (n * second_us) hour_us); [lia|]. apply Z.divide_factor_r. }
      destruct (Z_lt_ge_dec n 86400) as [L3|L3].
      * set (h := n / 3600).
        assert (Eh : n * second_us / hour_us = h).
        { unfold h. replace hour_us with (3600 * second_us) by reflexivity. apply Z.div_mul_cancel_r; lia. }
        pose proof (Z.div_mod n 3600 ltac:(lia)) as En. fold h in En. pose proof (Z.mod_pos_bound n 3600 ltac:(lia)).
        assert (M : 1 <= h < 24) by (unfold h; split; [apply Z.div_le_lower_bound; lia|apply Z.div_lt_upper_bound; lia]).
        assert (Fj : forall j, 0 <= j -> h * j < 24 -> fires_every (n * second_us) (3600 * (h * j))).
        { intros j J1 J2. assert (X : (3600 | 3600 * (h * j))) by apply Z.divide_factor_l. apply sixty_hour in X as [X Y].
          apply hours_regime; [lia|]. rewrite Eh. repeat split; auto. rewrite (Z.mul_comm 3600), Z.div_mul by lia.
          rewrite Z.mod_small by nia. apply Z.divide_factor_l. }
        pose proof (Z.div_mod 24 h ltac:(lia)) as E. pose proof (Z.mod_pos_bound 24 h ltac:(lia)). set (q := 24 / h) in *.
        assert (N0 : n mod 3600 = 0).
        { specialize (H (3600 * (h * 0)) (3600 * (h * 1)) ltac:(lia) (Fj 0 ltac:(lia) ltac:(lia)) (Fj 1 ltac:(lia) ltac:(lia))). lia. }
        exists h. split; [lia|].
        destruct (Z.eq_dec (24 mod h) 0) as [Z0|Z0]; [exists q; lia|].
        specialize (H (3600 * (h * q)) (1 * 86400) ltac:(lia) (Fj q ltac:(apply Z.div_pos; lia) ltac:(lia)) (Fd 1)). lia.
      * specialize (H (0 * 86400) (1 * 86400) ltac:(lia) (Fd 0) (Fd 1)). exists 24. split; [lia|apply Z.divide_refl].
Qed.
