From Coq Require Import ZArith String Ascii List Bool Lia.
From Verif.Base Require Import Result PyStr.
From Verif.Model Require Import DateTime.
From Verif.Spec Require Import Rfc5545 Calendar Timestamp.
From Verif.Proofs Require Import DurationProofs.
Import ListNotations.
Local Open Scope string_scope.
Local Open Scope Z_scope.
Local Arguments Z.add : simpl never.
Local Arguments Z.mul : simpl never.
Local Arguments Z.sub : simpl never.

(** * Ordinals *)

Definition nextb (a : Z * Z * Z) : Z * Z * Z :=
  let '(y, m, d) := a in
  if d <? days_in_month y m then (y, m, d + 1)
  else if m <? 12 then (y, m + 1, 1) else (y + 1, 1, 1).

Definition year_len (y : Z) : Z := if is_leap y then 366 else 365.

Lemma div_is a b q : 0 < b -> q * b <= a < (q + 1) * b -> a / b = q.
Proof. intros Hb H. symmetry. apply Z.div_unique with (a - q * b); lia. Qed.

Lemma mod_is a b q r : 0 <= r < b -> a = q * b + r -> a mod b = r.
Proof. intros H E. symmetry. apply Z.mod_unique with q; lia. Qed.

(** A zero-based year number written as 400 a + 100 b + 4 c + d. *)
Lemma days_before_parts a b c d :
  0 <= b <= 3 -> 0 <= c <= 24 -> 0 <= d <= 3 ->
  days_before_year (400 * a + 100 * b + 4 * c + d + 1) = 146097 * a + 36524 * b + 1461 * c + 365 * d.
Proof.
  intros Hb Hc Hd. unfold days_before_year.
  replace (400 * a + 100 * b + 4 * c + d + 1 - 1) with (400 * a + 100 * b + 4 * c + d) by lia.
  rewrite (div_is _ 4 (100 * a + 25 * b + c)), (div_is _ 100 (4 * a + b)), (div_is _ 400 a) by lia. lia.
Qed.

Lemma is_leap_parts a b c d :
  0 <= b <= 3 -> 0 <= c <= 24 -> 0 <= d <= 3 ->
  is_leap (400 * a + 100 * b + 4 * c + d + 1) = (d =? 3) && (negb (c =? 24) || (b =? 3)).
Proof.
  intros Hb Hc Hd. unfold is_leap.
  assert (E4 : ((400 * a + 100 * b + 4 * c + d + 1) mod 4 =? 0) = (d =? 3)).
  { destruct (Z.eqb_spec d 3) as [->|N].
    - rewrite (mod_is _ 4 (100 * a + 25 * b + c + 1) 0) by lia. reflexivity.
    - rewrite (mod_is _ 4 (100 * a + 25 * b + c) (d + 1)) by lia. apply Z.eqb_neq. lia. }
  rewrite E4. destruct (Z.eqb_spec d 3) as [->|N]; [|reflexivity]. cbn [andb].
  destruct (Z.eqb_spec c 24) as [->|Nc]; cbn [negb orb].
  - rewrite (mod_is _ 100 (4 * a + b + 1) 0) by lia. cbn [Z.eqb negb orb].
    destruct (Z.eqb_spec b 3) as [->|Nb].
    + rewrite (mod_is _ 400 (a + 1) 0) by lia. reflexivity.
    + rewrite (mod_is _ 400 a (100 * b + 100)) by lia. apply Z.eqb_neq. lia.
  - rewrite (mod_is _ 100 (4 * a + b) (4 * c + 3 + 1)) by lia.
    destruct (Z.eqb_spec (4 * c + 3 + 1) 0); [lia|]. reflexivity.
Qed.

(** The month computation, over all days of a year. *)
Definition month_check (leap : bool) (n : Z) : bool :=
  let month := Z.shiftr (n + 50) 5 in
  let preceding := DAYS_BEFORE_MONTH month + (if (2 <? month) && leap then 1 else 0) in
  let month' := if n <? preceding then month - 1 else month in
  let preceding' := if n <? preceding
                    then preceding - (DAYS_IN_MONTH (month - 1) + (if (month - 1 =? 2) && leap then 1 else 0))
                    else preceding in
  let len := if month' =? 2 then (if leap then 29 else 28)
             else if (month' =? 4) || (month' =? 6) || (month' =? 9) || (month' =? 11) then 30 else 31 in
  (1 <=? month') && (month' <=? 12) && (0 <=? n - preceding') && (n - preceding' <? len) &&
  (preceding' =? DAYS_BEFORE_MONTH month' + (if (2 <? month') && leap then 1 else 0)).

Fixpoint check_from (f : Z -> bool) (fuel : nat) (n : Z) : bool :=
  match fuel with O => true | S k => if f n then check_from f k (n + 1) else false end.

Lemma check_from_ok f fuel n : check_from f fuel n = true ->
  forall i, n <= i < n + Z.of_nat fuel -> f i = true.
Proof.
  revert n; induction fuel as [|k IH]; intros n H i Hi; [simpl in Hi; lia|].
  simpl in H. destruct (f n) eqn:E; [|discriminate].
  destruct (Z.eq_dec i n) as [->|]; [assumption|]. apply (IH (n + 1)); [assumption|lia].
Qed.

Lemma month_check_all leap n : 0 <= n <= 364 -> month_check leap n = true.
Proof.
  intros Hn. destruct leap.
  - apply (check_from_ok (month_check true) 365 0); [vm_compute; reflexivity|lia].
  - apply (check_from_ok (month_check false) 365 0); [vm_compute; reflexivity|lia].
Qed.

Lemma dbm12 y : days_before_month y 12 = 334 + if is_leap y then 1 else 0.
Proof. unfold days_before_month. destruct (is_leap y); reflexivity. Qed.

Lemma ord2ymd_spec n y m d : ord2ymd n = (y, m, d) ->
  ymd2ord y m d = n /\ 1 <= m <= 12 /\ 1 <= d <= days_in_month y m.
Proof.
  unfold ord2ymd.
  set (r0 := n - 1). set (a := r0 / 146097). set (r1 := r0 mod 146097).
  set (b := r1 / 36524). set (r2 := r1 mod 36524). set (c := r2 / 1461). set (r3 := r2 mod 1461).
  set (e := r3 / 365). set (r4 := r3 mod 365).
  pose proof (Z.div_mod r0 146097 ltac:(lia)) as E1. fold a r1 in E1.
  pose proof (Z.mod_pos_bound r0 146097 ltac:(lia)) as B1. fold r1 in B1.
  pose proof (Z.div_mod r1 36524 ltac:(lia)) as E2. fold b r2 in E2.
  pose proof (Z.mod_pos_bound r1 36524 ltac:(lia)) as B2. fold r2 in B2.
  pose proof (Z.div_mod r2 1461 ltac:(lia)) as E3. fold c r3 in E3.
  pose proof (Z.mod_pos_bound r2 1461 ltac:(lia)) as B3. fold r3 in B3.
  pose proof (Z.div_mod r3 365 ltac:(lia)) as E4. fold e r4 in E4.
  pose proof (Z.mod_pos_bound r3 365 ltac:(lia)) as B4. fold r4 in B4.
  assert (E0 : n = r0 + 1) by (unfold r0; lia).
  clearbody r0 r1 r2 r3 r4 a b c e.
  assert (Hb : 0 <= b <= 4) by lia. assert (Hc : 0 <= c <= 24) by lia. assert (He : 0 <= e <= 4) by lia.
  destruct (Z.eqb_spec e 4) as [->|Ne]; [|destruct (Z.eqb_spec b 4) as [->|Nb]]; cbn [orb]; intros H.
  - apply pair_equal_spec in H as [H <-]; apply pair_equal_spec in H as [<- <-].
    assert (b <= 3) by lia.
    replace (a * 400 + 1 + (b * 100 + c * 4 + 4) - 1) with (400 * a + 100 * b + 4 * c + 3 + 1) by lia.
    unfold ymd2ord. rewrite dbm12. change (days_in_month _ 12) with 31.
    rewrite days_before_parts, is_leap_parts by lia.
    assert (L : (3 =? 3) && (negb (c =? 24) || (b =? 3)) = true).
    { destruct (Z.eqb_spec c 24); cbn [negb orb andb Z.eqb]; [|reflexivity]. apply Z.eqb_eq. lia. }
    rewrite L. lia.
  - apply pair_equal_spec in H as [H <-]; apply pair_equal_spec in H as [<- <-].
    assert (c = 0) by lia. assert (e = 0) by lia. subst.
    replace (a * 400 + 1 + (4 * 100 + 0 * 4 + 0) - 1) with (400 * a + 100 * 3 + 4 * 24 + 3 + 1) by lia.
    unfold ymd2ord. rewrite dbm12. change (days_in_month _ 12) with 31.
    rewrite (days_before_parts a 3 24 3), (is_leap_parts a 3 24 3) by lia.
    change ((3 =? 3) && (negb (24 =? 24) || (3 =? 3))) with true. lia.
  - revert H. set (lp := (e =? 3) && (negb (c =? 24) || (b =? 3))).
    pose proof (month_check_all lp r4 ltac:(lia)) as MC. unfold month_check in MC.
    set (mo := Z.shiftr (r4 + 50) 5) in *.
    set (pr := DAYS_BEFORE_MONTH mo + (if (2 <? mo) && lp then 1 else 0)) in *.
    replace (a * 400 + 1 + (b * 100 + c * 4 + e)) with (400 * a + 100 * b + 4 * c + e + 1) by lia.
    assert (LP : is_leap (400 * a + 100 * b + 4 * c + e + 1) = lp) by (apply is_leap_parts; lia).
    assert (DB : days_before_year (400 * a + 100 * b + 4 * c + e + 1) = 146097 * a + 36524 * b + 1461 * c + 365 * e)
      by (apply days_before_parts; lia).
    destruct (r4 <? pr); intros H; apply pair_equal_spec in H as [H <-]; apply pair_equal_spec in H as [<- <-];
      rewrite !andb_true_iff, !Z.leb_le, Z.ltb_lt, Z.eqb_eq in MC; destruct MC as ((((M1 & M2) & M3) & M4) & M5);
      unfold ymd2ord, days_before_month, days_in_month; rewrite DB, LP, <- M5; lia.
Qed.

Lemma days_before_next y : days_before_year (y + 1) = days_before_year y + year_len y.
Proof.
  set (r := y - 1). set (a := r / 400). set (r1 := r mod 400).
  pose proof (Z.div_mod r 400 ltac:(lia)) as E1. fold a r1 in E1.
  pose proof (Z.mod_pos_bound r 400 ltac:(lia)) as B1. fold r1 in B1.
  set (b := r1 / 100). set (r2 := r1 mod 100).
  pose proof (Z.div_mod r1 100 ltac:(lia)) as E2. fold b r2 in E2.
  pose proof (Z.mod_pos_bound r1 100 ltac:(lia)) as B2. fold r2 in B2.
  set (c := r2 / 4). set (e := r2 mod 4).
  pose proof (Z.div_mod r2 4 ltac:(lia)) as E3. fold c e in E3.
  pose proof (Z.mod_pos_bound r2 4 ltac:(lia)) as B3. fold e in B3.
  assert (E0 : y = r + 1) by (unfold r; lia).
  clearbody r r1 r2 a b c e.
  assert (Hb : 0 <= b <= 3) by lia. assert (Hc : 0 <= c <= 24) by lia.
  assert (Ey : y = 400 * a + 100 * b + 4 * c + e + 1) by lia.
  unfold year_len. rewrite Ey. rewrite is_leap_parts, days_before_parts by lia.
  destruct (Z.eqb_spec e 3) as [->|N3]; cbn [andb].
  - destruct (Z.eqb_spec c 24) as [->|N24]; cbn [negb orb].
    + destruct (Z.eqb_spec b 3) as [->|Nb3].
      * replace (400 * a + 100 * 3 + 4 * 24 + 3 + 1 + 1) with (400 * (a + 1) + 100 * 0 + 4 * 0 + 0 + 1) by lia.
        rewrite days_before_parts by lia. lia.
      * replace (400 * a + 100 * b + 4 * 24 + 3 + 1 + 1) with (400 * a + 100 * (b + 1) + 4 * 0 + 0 + 1) by lia.
        rewrite days_before_parts by lia. lia.
    + replace (400 * a + 100 * b + 4 * c + 3 + 1 + 1) with (400 * a + 100 * b + 4 * (c + 1) + 0 + 1) by lia.
      rewrite days_before_parts by lia. lia.
  - replace (400 * a + 100 * b + 4 * c + e + 1 + 1) with (400 * a + 100 * b + 4 * c + (e + 1) + 1) by lia.
    rewrite days_before_parts by lia. lia.
Qed.

Lemma days_before_mono y y' : y <= y' -> days_before_year y <= days_before_year y'.
Proof.
  intros H. pattern y'. apply Zlt_lower_bound_ind with (z := y); [|assumption].
  clear y' H. intros y' IH H. destruct (Z.eq_dec y' y) as [->|]; [lia|].
  replace y' with ((y' - 1) + 1) by lia. rewrite days_before_next.
  specialize (IH (y' - 1) ltac:(lia)). unfold year_len. destruct (is_leap (y' - 1)); lia.
Qed.

Lemma month_cases m : 1 <= m <= 12 ->
  m = 1 \/ m = 2 \/ m = 3 \/ m = 4 \/ m = 5 \/ m = 6 \/ m = 7 \/ m = 8 \/ m = 9 \/ m = 10 \/ m = 11 \/ m = 12.
Proof. lia. Qed.

Ltac by_month H :=
  repeat (destruct H as [H|H]; [rewrite H in *|]); [..|rewrite H in *].

Lemma doy_range y m d : 1 <= m <= 12 -> 1 <= d <= days_in_month y m ->
  1 <= days_before_month y m + d <= year_len y.
Proof.
  intros Hm Hd. unfold days_before_month, days_in_month, year_len in *.
  pose proof (month_cases m Hm) as C.
  destruct (is_leap y); by_month C; simpl in *; lia.
Qed.

Lemma doy_next_month y m : 1 <= m < 12 ->
  days_before_month y (m + 1) = days_before_month y m + days_in_month y m.
Proof.
  intros Hm. unfold days_before_month, days_in_month.
  pose proof (month_cases m ltac:(lia)) as C.
  destruct (is_leap y); by_month C; simpl in *; lia.
Qed.

Lemma days_before_month_mono y m m' : 1 <= m -> m < m' -> m' <= 12 ->
  days_before_month y m + days_in_month y m <= days_before_month y m'.
Proof.
  intros H1 H2 H3. assert (H2' : m + 1 <= m') by lia. revert H2' H3. pattern m'.
  apply Zlt_lower_bound_ind with (z := m + 1); [|lia].
  clear m' H2. intros m' IH H _ H3. destruct (Z.eq_dec m' (m + 1)) as [->|].
  - rewrite doy_next_month by lia. lia.
  - replace m' with ((m' - 1) + 1) by lia. rewrite doy_next_month by lia.
    specialize (IH (m' - 1) ltac:(lia) ltac:(lia) ltac:(lia)).
    assert (0 <= days_in_month y (m' - 1)).
    { unfold days_in_month. repeat match goal with |- context [if ?c then _ else _] => destruct c end; lia. }
    lia.
Qed.

Lemma ymd2ord_inj y m d y' m' d' :
  1 <= m <= 12 -> 1 <= d <= days_in_month y m ->
  1 <= m' <= 12 -> 1 <= d' <= days_in_month y' m' ->
  ymd2ord y m d = ymd2ord y' m' d' -> (y, m, d) = (y', m', d').
Proof.
  intros Hm Hd Hm' Hd' E. unfold ymd2ord in E.
  pose proof (doy_range y m d Hm Hd) as R. pose proof (doy_range y' m' d' Hm' Hd') as R'.
  assert (y = y').
  { destruct (Z.lt_trichotomy y y') as [L|[L|L]]; [|assumption|].
    - pose proof (days_before_mono (y + 1) y' ltac:(lia)) as M. rewrite days_before_next in M. lia.
    - pose proof (days_before_mono (y' + 1) y ltac:(lia)) as M. rewrite days_before_next in M. lia. }
  subst y'.
  destruct (Z.lt_trichotomy m m') as [L|[L|L]].
  - pose proof (days_before_month_mono y m m' ltac:(lia) L ltac:(lia)). lia.
  - subst m'. f_equal. lia.
  - pose proof (days_before_month_mono y m' m ltac:(lia) L ltac:(lia)). lia.
Qed.

Lemma ord2ymd_next n : ord2ymd (n + 1) = nextb (ord2ymd n).
Proof.
  destruct (ord2ymd (n + 1)) as [[y1 m1] d1] eqn:E1. destruct (ord2ymd n) as [[y m] d] eqn:E.
  apply ord2ymd_spec in E1 as (O1 & M1 & D1). apply ord2ymd_spec in E as (O & M & D).
  unfold nextb. destruct (Z.ltb_spec d (days_in_month y m)).
  - apply ymd2ord_inj; try lia. unfold ymd2ord in *. lia.
  - assert (d = days_in_month y m) by lia. destruct (Z.ltb_spec m 12).
    + assert (1 <= days_in_month y (m + 1)).
      { unfold days_in_month. repeat match goal with |- context [if ?c then _ else _] => destruct c end; lia. }
      apply ymd2ord_inj; try lia. rewrite O1. unfold ymd2ord in *. rewrite doy_next_month by lia. lia.
    + assert (m = 12) by lia. subst m. change (days_in_month y 12) with 31 in *.
      apply ymd2ord_inj; try lia; try (change (days_in_month (y + 1) 1) with 31; lia).
      rewrite O1. unfold ymd2ord in *. rewrite days_before_next.
      unfold days_before_month, year_len in *. destruct (is_leap y), (is_leap (y + 1)); simpl in *; lia.
Qed.

(** * Agreement with the calendar specification *)

Lemma mod_divides a b : 0 < a -> (b mod a =? 0) = true <-> divides a b.
Proof.
  intros Ha. rewrite Z.eqb_eq. unfold divides. split.
  - intros H. exists (b / a). pose proof (Z.div_mod b a). lia.
  - intros [k ->]. apply Z.mod_mul. lia.
Qed.

Lemma leap_iff y : is_leap y = true <-> leap y.
Proof.
  unfold is_leap, leap. rewrite andb_true_iff, orb_true_iff, negb_true_iff.
  rewrite (mod_divides 4), (mod_divides 400) by lia.
  assert (E : (y mod 100 =? 0) = false <-> ~ divides 100 y).
  { rewrite <- (mod_divides 100) by lia. destruct (y mod 100 =? 0); split; congruence. }
  rewrite E. tauto.
Qed.

Lemma month_length_iff y m n : month_length y m n <-> 1 <= m <= 12 /\ n = days_in_month y m.
Proof.
  split.
  - intros H. inversion H; subst; unfold days_in_month; simpl; try lia.
    + destruct (is_leap y) eqn:E; [apply leap_iff in E; contradiction|lia].
    + apply leap_iff in H0. rewrite H0. lia.
  - intros [Hm ->].
    assert (E : m = 1 \/ m = 2 \/ m = 3 \/ m = 4 \/ m = 5 \/ m = 6 \/ m = 7 \/ m = 8 \/ m = 9 \/ m = 10 \/ m = 11 \/ m = 12) by lia.
    destruct E as [->|[->|E]]; [constructor| |repeat (destruct E as [->|E]; [constructor|]); subst; constructor].
    unfold days_in_month; simpl. destruct (is_leap y) eqn:E.
    + apply ml_feb_leap. now apply leap_iff.
    + apply ml_feb. intros L. apply leap_iff in L. congruence.
Qed.

Lemma real_date_iff y m d : real_date y m d <-> 1 <= m <= 12 /\ 1 <= d <= days_in_month y m.
Proof.
  unfold real_date. split.
  - intros (n & H & Hd). apply month_length_iff in H as [? ->]. tauto.
  - intros [Hm Hd]. exists (days_in_month y m). split; [now apply month_length_iff|assumption].
Qed.

Definition valid_date (a : date) : Prop :=
  let '(y, m, d) := a in 1 <= m <= 12 /\ 1 <= d <= days_in_month y m.

Lemma next_day_iff a b : valid_date a -> (next_day a b <-> b = nextb a).
Proof.
  destruct a as [[y m] d]. intros [Hm Hd]. unfold nextb. split.
  - intros H; inversion H as [? ? ? n ML L | ? ? n ML L | ]; subst.
    + apply month_length_iff in ML as [_ ->]. destruct (Z.ltb_spec d (days_in_month y m)); [reflexivity|lia].
    + apply month_length_iff in ML as [_ ->]. rewrite Z.ltb_irrefl.
      destruct (Z.ltb_spec m 12); [reflexivity|lia].
    + reflexivity.
  - intros ->. destruct (Z.ltb_spec d (days_in_month y m)).
    + eapply nd_day; [apply month_length_iff; split; [lia|reflexivity]|assumption].
    + destruct (Z.ltb_spec m 12).
      * assert (d = days_in_month y m) by lia. subst. apply nd_month; [|assumption].
        apply month_length_iff; split; [lia|reflexivity].
      * assert (m = 12) by lia. subst. change (days_in_month y 12) with 31 in *.
        assert (d = 31) by lia. subst. apply nd_year.
Qed.

Lemma ord2ymd_valid n : valid_date (ord2ymd n).
Proof.
  destruct (ord2ymd n) as [[y m] d] eqn:E. apply ord2ymd_spec in E. simpl. tauto.
Qed.

Lemma day_number_ord a n : day_number a n -> a = ord2ymd n /\ 1 <= n.
Proof.
  induction 1 as [|a b n _ [-> IH] HN]; [split; [reflexivity|lia]|].
  apply next_day_iff in HN; [|apply ord2ymd_valid]. rewrite ord2ymd_next. split; [assumption|lia].
Qed.

Lemma day_number_of_ord n : 1 <= n -> day_number (ord2ymd n) n.
Proof.
  intros H. pattern n. apply Zlt_lower_bound_ind with (z := 1); [|assumption].
  clear n H. intros n IH H. destruct (Z.eq_dec n 1) as [->|].
  - constructor.
  - replace n with ((n - 1) + 1) by lia. rewrite ord2ymd_next.
    econstructor; [apply IH; lia|]. apply next_day_iff; [apply ord2ymd_valid|reflexivity].
Qed.

Lemma day_number_ymd2ord y m d n : day_number (y, m, d) n -> ymd2ord y m d = n.
Proof. intros H. apply day_number_ord in H as [H _]. symmetry in H. now apply ord2ymd_spec in H. Qed.

Lemma denotes_instant t i :
  denotes (dt_year t) (dt_month t) (dt_day t) (dt_hour t) (dt_minute t) (dt_second t) (dt_micro t) (dt_off t) i ->
  instant t = i.
Proof.
  intros (n & D & _ & ->). apply day_number_ymd2ord in D. unfold instant, local_us. rewrite D. lia.
Qed.

Lemma of_instant_denotes i : 86400000000 <= i < 3652060 * 86400000000 ->
  exists u, of_instant i = Ok u /\ dt_off u = 0 /\
    denotes (dt_year u) (dt_month u) (dt_day u) (dt_hour u) (dt_minute u) (dt_second u) (dt_micro u) 0 i /\
    ord2ymd (i / 86400000000) = (dt_year u, dt_month u, dt_day u).
Proof.
  intros H. unfold of_instant. set (day := i / 86400000000). set (r := i mod 86400000000).
  pose proof (Z.div_mod i 86400000000 ltac:(lia)) as E. fold day r in E.
  pose proof (Z.mod_pos_bound i 86400000000 ltac:(lia)) as B. fold r in B.
  assert (D : 1 <= day <= 3652059) by nia.
  destruct (Z.leb_spec 1 day); [|lia]. destruct (Z.leb_spec day 3652059); [|lia]. simpl andb. cbv iota.
  destruct (ord2ymd day) as [[y m] d] eqn:O. eexists. split; [reflexivity|]. simpl.
  split; [reflexivity|]. split; [|reflexivity].
  exists day. rewrite <- O. split; [apply day_number_of_ord; lia|].
  set (s := r / 1000000). set (us := r mod 1000000).
  pose proof (Z.div_mod r 1000000 ltac:(lia)) as E2. fold s us in E2.
  pose proof (Z.mod_pos_bound r 1000000 ltac:(lia)) as B2. fold us in B2.
  assert (S : 0 <= s < 86400) by (unfold s; split; [apply Z.div_pos; lia|apply Z.div_lt_upper_bound; lia]).
  pose proof (Z.div_mod s 3600 ltac:(lia)). pose proof (Z.mod_pos_bound s 3600 ltac:(lia)).
  pose proof (Z.div_mod (s mod 3600) 60 ltac:(lia)).
  assert (M : s mod 60 = (s mod 3600) mod 60).
  { symmetry. rewrite (Z.mod_eq s 3600) by lia.
    replace (s - 3600 * (s / 3600)) with (s + (- (60 * (s / 3600))) * 60) by lia. apply Z.mod_add. lia. }
  rewrite M. pose proof (Z.mod_pos_bound (s mod 3600) 60 ltac:(lia)).
  assert (0 <= s / 3600 < 24) by (split; [apply Z.div_pos; lia|apply Z.div_lt_upper_bound; lia]).
  assert (0 <= s mod 3600 / 60 < 60) by (split; [apply Z.div_pos; lia|apply Z.div_lt_upper_bound; lia]).
  unfold time_of_day. repeat split; try lia.
Qed.

Lemma fields_ok_iff y mo d h mi s us :
  fields_ok y mo d h mi s us = true <->
  1 <= y <= 9999 /\ real_date y mo d /\ time_of_day h mi s us.
Proof.
  unfold fields_ok, time_of_day. rewrite real_date_iff, !andb_true_iff, !Z.leb_le. lia.
Qed.

(** * Text matching *)

Lemma take_digits_app k a r :
  String.length a = k -> all_digits a = true -> take_digits k (a ++ r) = Some (a, r).
Proof.
  revert a; induction k as [|k IH]; intros a L D; destruct a as [|c a]; try discriminate; [reflexivity|].
  simpl in *. apply andb_true_iff in D as [-> D]. rewrite IH by (congruence || assumption). reflexivity.
Qed.

Lemma take_digits_spec k s a r :
  take_digits k s = Some (a, r) -> s = a ++ r /\ String.length a = k /\ all_digits a = true.
Proof.
  revert s a r; induction k as [|k IH]; intros s a r H; simpl in H.
  - injection H as <- <-. auto.
  - destruct s as [|c s]; [discriminate|]. destruct (is_digit c) eqn:D; [|discriminate].
    destruct (take_digits k s) as [[a' b']|] eqn:E; [|discriminate]. injection H as <- <-.
    apply IH in E as (-> & <- & D'). simpl. rewrite D, D'. auto.
Qed.

Lemma expect_spec c s r : expect c s = Some r <-> s = String c r.
Proof.
  destruct s as [|c' s]; simpl; [split; discriminate|].
  destruct (Ascii.eqb c' c) eqn:E.
  - apply Ascii.eqb_eq in E; subst. split; congruence.
  - split; [discriminate|]. intros H. injection H as -> _. now rewrite Ascii.eqb_refl in E.
Qed.

Lemma expect_app c r : expect c (String c r) = Some r.
Proof. now apply expect_spec. Qed.

(** The shape of a timestamp text. *)
Definition stamp (y mo d h mi se dot f rest : string) : string :=
  y ++ "-" ++ mo ++ "-" ++ d ++ "T" ++ h ++ ":" ++ mi ++ ":" ++ se ++ dot ++ f ++ "Z" ++ rest.

Definition stamp_ok (y mo d h mi se dot f : string) : Prop :=
  String.length y = 4%nat /\ String.length mo = 2%nat /\ String.length d = 2%nat /\
  String.length h = 2%nat /\ String.length mi = 2%nat /\ String.length se = 2%nat /\
  all_digits y = true /\ all_digits mo = true /\ all_digits d = true /\ all_digits h = true /\
  all_digits mi = true /\ all_digits se = true /\ all_digits f = true /\ (dot = "" \/ dot = ".").

Lemma dt_match_stamp y mo d h mi se dot f rest :
  stamp_ok y mo d h mi se dot f ->
  dt_match (stamp y mo d h mi se dot f rest) =
    Some (int_of y, int_of mo, int_of d, int_of h, int_of mi, int_of se,
          match f with EmptyString => None | _ => Some (first_n 6 f) end).
Proof.
  intros (L1 & L2 & L3 & L4 & L5 & L6 & D1 & D2 & D3 & D4 & D5 & D6 & D7 & HD).
  unfold dt_match, stamp.
  rewrite take_digits_app by assumption. cbn [obind]. cbn [append]. rewrite expect_app. cbn [obind].
  rewrite take_digits_app by assumption. cbn [obind]. rewrite expect_app. cbn [obind].
  rewrite take_digits_app by assumption. cbn [obind]. rewrite expect_app. cbn [obind].
  rewrite take_digits_app by assumption. cbn [obind]. rewrite expect_app. cbn [obind].
  rewrite take_digits_app by assumption. cbn [obind]. rewrite expect_app. cbn [obind].
  rewrite take_digits_app by assumption. cbn [obind].
  assert (E : opt_dot (dot ++ f ++ String "Z" rest) = f ++ String "Z" rest).
  { destruct HD as [->| ->]; [|reflexivity]. cbn [append]. destruct f as [|c f]; [reflexivity|].
    simpl in *. apply andb_true_iff in D7 as [D7 _].
    destruct (Ascii.eqb c ".") eqn:E; [apply Ascii.eqb_eq in E; subst; discriminate|reflexivity]. }
  rewrite E. rewrite span_digits_app by (assumption || reflexivity). rewrite expect_app. reflexivity.
Qed.

Lemma dt_match_inv s v :
  dt_match s = Some v ->
  exists y mo d h mi se dot f rest, s = stamp y mo d h mi se dot f rest /\ stamp_ok y mo d h mi se dot f.
Proof.
  unfold dt_match. intros H.
  repeat match type of H with
  | obind (take_digits ?k ?s) _ = Some _ =>
      let E := fresh "T" in destruct (take_digits k s) as [[? ?]|] eqn:E; [|discriminate];
      cbn [obind] in H; apply take_digits_spec in E as (? & ? & ?)
  | obind (expect ?c ?s) _ = Some _ =>
      let E := fresh "X" in destruct (expect c s) eqn:E; [|discriminate];
      cbn [obind] in H; apply expect_spec in E
  end.
  match type of H with context [span_digits (opt_dot ?z)] => rename z into sZ; assert (EZ : True) by exact I end.
  destruct (span_digits (opt_dot sZ)) as [run tl] eqn:E. apply span_digits_spec in E as (E & Dr & _).
  destruct (expect "Z" tl) as [rest|] eqn:XZ; [|discriminate]. apply expect_spec in XZ. subst tl. clear EZ H.
  assert (HD : exists dot, (dot = "" \/ dot = ".") /\ sZ = dot ++ run ++ String "Z" rest).
  { destruct sZ as [|c sx]; [exists ""; split; [now left|exact E]|]. simpl in E.
    destruct (Ascii.eqb c ".") eqn:EC.
    - apply Ascii.eqb_eq in EC; subst. exists ".". split; [now right|]. reflexivity.
    - exists "". split; [now left|exact E]. }
  destruct HD as (dot & HD & HE). subst.
  do 9 eexists. split.
  - unfold stamp. cbn [append]. reflexivity.
  - unfold stamp_ok. repeat split; assumption.
Qed.

Lemma dt_match_none s : dt_match s = None <->
  ~ exists y mo d h mi se dot f rest, s = stamp y mo d h mi se dot f rest /\ stamp_ok y mo d h mi se dot f.
Proof.
  split.
  - intros H (y & mo & d & h & mi & se & dot & f & rest & -> & OK).
    rewrite dt_match_stamp in H by assumption. discriminate.
  - intros H. destruct (dt_match s) eqn:E; [|reflexivity]. exfalso. apply H. eapply dt_match_inv; eauto.
Qed.

(** The fraction: the first six digits, scaled. *)
Definition frac_us (f : string) : Z := int_of f * 1000000 / 10 ^ Z.of_nat (String.length f).

Lemma first_n_split k f : exists r, f = first_n k f ++ r /\
  String.length (first_n k f) = Nat.min k (String.length f) /\ (all_digits f = true -> all_digits (first_n k f) = true /\ all_digits r = true).
Proof.
  revert f; induction k as [|k IH]; intros f.
  - exists f. simpl. auto.
  - destruct f as [|c f]; [exists ""; simpl; auto|]. destruct (IH f) as (r & E & L & D). exists r. simpl.
    split; [congruence|]. split; [congruence|]. intros H. apply andb_true_iff in H as [-> H].
    simpl. apply D. assumption.
Qed.

Lemma int_of_zeros_right s k : int_of (s ++ zeros k) = int_of s * 10 ^ Z.of_nat k.
Proof.
  rewrite int_of_app, zeros_length. rewrite <- (str_app_nil (zeros k)), int_of_zeros.
  change (int_of "") with 0. lia.
Qed.

Lemma frac_value f : all_digits f = true -> f <> "" ->
  int_of (first_n 6 f ++ zeros (6 - String.length (first_n 6 f))) = frac_us f /\ 0 <= frac_us f < 1000000.
Proof.
  intros D NE. destruct (first_n_split 6 f) as (r & E & L & DD). destruct (DD D) as [D1 D2].
  rewrite int_of_zeros_right. unfold frac_us. set (a := first_n 6 f) in *.
  rewrite E. rewrite int_of_app, str_length_app.
  pose proof (int_of_range r D2) as Rr. pose proof (int_of_range a D1) as Ra.
  destruct (le_lt_dec (String.length f) 6) as [Hle|Hgt].
  - assert (Lr : String.length r = 0%nat).
    { apply (f_equal String.length) in E. rewrite str_length_app in E. lia. }
    destruct r; [|discriminate]. change (int_of "") with 0. simpl (String.length "").
    rewrite Nat.add_0_r. change (Z.of_nat 0) with 0. rewrite Z.pow_0_r, Z.mul_1_r, Z.add_0_r.
    set (la := String.length a) in *. assert (Hla : (la <= 6)%nat) by lia.
    assert (P : 1000000 = 10 ^ Z.of_nat (6 - la) * 10 ^ Z.of_nat la).
    { rewrite <- Z.pow_add_r by lia. replace (Z.of_nat (6 - la) + Z.of_nat la) with 6 by lia. reflexivity. }
    assert (Q : 0 < 10 ^ Z.of_nat la) by (apply Z.pow_pos_nonneg; lia).
    assert (Q2 : 0 < 10 ^ Z.of_nat (6 - la)) by (apply Z.pow_pos_nonneg; lia).
    rewrite P. rewrite Z.mul_assoc, Z.div_mul by lia. split; [reflexivity|]. nia.
  - assert (La : String.length a = 6%nat) by lia. rewrite La in *.
    simpl (6 - 6)%nat. change (Z.of_nat 0) with 0. rewrite Z.pow_0_r, Z.mul_1_r.
    rewrite Nat2Z.inj_add, Z.pow_add_r by lia. change (10 ^ Z.of_nat 6) with 1000000 in *.
    assert (Q : 0 < 10 ^ Z.of_nat (String.length r)) by (apply Z.pow_pos_nonneg; lia).
    rewrite (Z.mul_comm 1000000 (10 ^ _)).
    rewrite <- Z.div_div by lia.
    assert (X : forall b, (int_of a * b + int_of r) * 1000000 = int_of a * 1000000 * b + int_of r * 1000000) by (intros; ring).
    assert (Y : int_of a = (int_of a * 10 ^ Z.of_nat (String.length r) + int_of r) * 1000000 / 10 ^ Z.of_nat (String.length r) / 1000000).
    { rewrite Z.div_div by lia. rewrite Z.div_mul_cancel_r by lia. rewrite Z.div_add_l by lia. rewrite Z.div_small by lia. lia. }
    rewrite <- Y. split; [reflexivity|assumption].
Qed.

Lemma parse_stamp y mo d h mi se dot f rest :
  stamp_ok y mo d h mi se dot f ->
  parse_datetime (stamp y mo d h mi se dot f rest) =
    let us := match f with EmptyString => 0 | _ => frac_us f end in
    match mk_datetime (int_of y) (int_of mo) (int_of d) (int_of h) (int_of mi) (int_of se) us 0 with
    | Ok t => Ok (Parsed t) | Raise e => Raise e end.
Proof.
  intros OK. unfold parse_datetime. rewrite dt_match_stamp by assumption.
  destruct f as [|c f]; [reflexivity|]. cbv zeta.
  assert (D : all_digits (String c f) = true) by apply OK.
  destruct (frac_value (String c f) D ltac:(discriminate)) as [E _]. rewrite E. reflexivity.
Qed.

(** * Round trip *)

Lemma pad2_length n : 0 <= n < 100 -> String.length (pad 2 n) = 2%nat.
Proof. intros H. apply pad_length; [lia| |discriminate]. change (10 ^ Z.of_nat 2) with 100. lia. Qed.
Lemma pad6_length n : 0 <= n < 1000000 -> String.length (pad 6 n) = 6%nat.
Proof. intros H. apply pad_length; [lia| |discriminate]. change (10 ^ Z.of_nat 6) with 1000000. lia. Qed.

Lemma strftime_stamp u :
  1000 <= dt_year u <= 9999 -> 1 <= dt_month u <= 12 -> 1 <= dt_day u <= 31 ->
  time_of_day (dt_hour u) (dt_minute u) (dt_second u) (dt_micro u) ->
  strftime_utc u = stamp (dec (dt_year u)) (pad 2 (dt_month u)) (pad 2 (dt_day u)) (pad 2 (dt_hour u))
                     (pad 2 (dt_minute u)) (pad 2 (dt_second u)) "." (pad 6 (dt_micro u)) "" /\
  stamp_ok (dec (dt_year u)) (pad 2 (dt_month u)) (pad 2 (dt_day u)) (pad 2 (dt_hour u))
                     (pad 2 (dt_minute u)) (pad 2 (dt_second u)) "." (pad 6 (dt_micro u)).
Proof.
  intros Hy Hm Hd (Hh & Hmi & Hs & Hus). split.
  - reflexivity.
  - unfold stamp_ok.
    assert (P : forall n, 0 <= n < 100 -> String.length (pad 2 n) = 2%nat /\ all_digits (pad 2 n) = true).
    { intros n Hn. split; [now apply pad2_length|apply pad_spec; lia]. }
    repeat split; try (apply P; lia); try (right; reflexivity).
    + assert (L : (String.length (dec (dt_year u)) <= 4)%nat) by (apply dec_length_le; [lia|change (10 ^ Z.of_nat 4) with 10000; lia|discriminate]).
      assert (U : (3 < String.length (dec (dt_year u)))%nat).
      { pose proof (int_of_range (dec (dt_year u)) (dec_digits (dt_year u) ltac:(lia))) as R.
        rewrite int_of_dec in R by lia.
        destruct (le_lt_dec (String.length (dec (dt_year u))) 3); [|assumption].
        assert (10 ^ Z.of_nat (String.length (dec (dt_year u))) <= 10 ^ 3) by (apply Z.pow_le_mono_r; lia).
        change (10 ^ 3) with 1000 in H. lia. }
      lia.
    + apply dec_digits; lia.
    + apply pad_spec; lia.
Qed.

Lemma round_trip t i :
  instant t = i ->
  364878 * 86400000000 <= i < 3652060 * 86400000000 ->
  exists s u, datetimeformat t = Ok s /\ parse_datetime s = Ok (Parsed u) /\ dt_off u = 0 /\
    denotes (dt_year u) (dt_month u) (dt_day u) (dt_hour u) (dt_minute u) (dt_second u) (dt_micro u) 0 i.
Proof.
  intros Hi B. destruct (of_instant_denotes i) as (u & E & O & D & OY); [lia|].
  exists (strftime_utc u), u. unfold datetimeformat, to_utc. rewrite Hi, E.
  split; [reflexivity|].
  assert (Dy : 364878 <= i / 86400000000 <= 3652059).
  { pose proof (Z.div_mod i 86400000000 ltac:(lia)). pose proof (Z.mod_pos_bound i 86400000000 ltac:(lia)). nia. }
  destruct (ord2ymd_spec _ _ _ _ OY) as (OO & Hm & Hd).
  destruct D as (n & DN & T & Ei).
  assert (HY : 1000 <= dt_year u <= 9999).
  { pose proof (doy_range _ _ _ Hm Hd) as R. unfold ymd2ord in OO.
    assert (DB : days_before_year 1000 = 364877 /\ days_before_year 10000 = 3652059) by (split; reflexivity).
    split.
    - destruct (Z.le_gt_cases 1000 (dt_year u)) as [|L]; [assumption|exfalso].
      pose proof (days_before_mono (dt_year u + 1) 1000 ltac:(lia)) as Mo. rewrite days_before_next in Mo. lia.
    - destruct (Z.le_gt_cases (dt_year u) 9999) as [|L]; [assumption|exfalso].
      pose proof (days_before_mono 10000 (dt_year u) ltac:(lia)) as Mo. lia. }
  assert (HD : 1 <= dt_day u <= 31).
  { unfold days_in_month in Hd. destruct (dt_month u =? 2), (is_leap (dt_year u)),
      ((dt_month u =? 4) || (dt_month u =? 6) || (dt_month u =? 9) || (dt_month u =? 11)); lia. }
  destruct (strftime_stamp u HY Hm HD T) as [ES OK].
  split; [|split; [assumption|exists n; auto]].
  rewrite ES, (parse_stamp _ _ _ _ _ _ _ _ _ OK).
  destruct T as (Th & Tm & Ts & Tu).
  assert (PN : pad 6 (dt_micro u) <> "").
  { intros C. apply (f_equal String.length) in C. rewrite pad6_length in C by lia. discriminate. }
  assert (FU : (match pad 6 (dt_micro u) with EmptyString => 0 | _ => frac_us (pad 6 (dt_micro u)) end) = dt_micro u).
  { destruct (pad 6 (dt_micro u)) eqn:EP; [congruence|]. rewrite <- EP. unfold frac_us.
    rewrite pad6_length by lia. destruct (pad_spec 6 (dt_micro u)) as [_ ->]; [lia|].
    change (10 ^ Z.of_nat 6) with 1000000. apply Z.div_mul. lia. }
  rewrite FU. cbv zeta.
  rewrite int_of_dec by lia. repeat (match goal with |- context [int_of (pad 2 ?n)] => destruct (pad_spec 2 n) as [_ ->]; [lia|] end).
  unfold mk_datetime.
  assert (F : fields_ok (dt_year u) (dt_month u) (dt_day u) (dt_hour u) (dt_minute u) (dt_second u) (dt_micro u) = true).
  { apply fields_ok_iff. split; [lia|]. split; [apply real_date_iff; lia|]. unfold time_of_day; lia. }
  rewrite F. destruct u; simpl in *. subst. reflexivity.
Qed.

(** * Agreement with the timestamp specification *)

Lemma number_of_width_digits k s v :
  number_of_width k s v -> String.length s = k /\ all_digits s = true /\ int_of s = v.
Proof. intros [N L]. apply number_ok in N as (D & V & _). auto. Qed.

Lemma digits_number_of_width k s :
  k <> 0%nat -> String.length s = k -> all_digits s = true -> number_of_width k s (int_of s).
Proof.
  intros K L D. split; [|assumption]. apply number_complete; [assumption|]. intros ->. simpl in L. congruence.
Qed.

Lemma fraction_digits f us :
  fraction f us -> all_digits f = true /\ us = match f with EmptyString => 0 | _ => frac_us f end.
Proof.
  intros H; inversion H as [|? v N]; subst; [auto|].
  apply number_ok in N as (D & <- & NE & _). destruct f; [congruence|]. auto.
Qed.

Lemma digits_fraction f :
  all_digits f = true -> fraction f (match f with EmptyString => 0 | _ => frac_us f end).
Proof.
  intros D. destruct f as [|c f]; [constructor|]. apply fr_digits.
  apply number_complete; [assumption|discriminate].
Qed.

Lemma timestamp_stamp s y mo d h mi se us :
  timestamp_text s y mo d h mi se us ->
  parse_datetime s = match mk_datetime y mo d h mi se us 0 with
                     | Ok t => Ok (Parsed t) | Raise e => Raise e end.
Proof.
  intros H. inversion H; subst.
  repeat match goal with X : number_of_width _ _ _ |- _ => apply number_of_width_digits in X as (? & ? & <-) end.
  match goal with X : fraction _ _ |- _ => apply fraction_digits in X as (? & ->) end.
  match goal with |- parse_datetime ?x = _ =>
    change x with (stamp ys mos ds hs mis ss dot f rest) end.
  rewrite parse_stamp; [reflexivity|]. unfold stamp_ok. auto 20.
Qed.

Lemma parse_accepts s y mo d h mi se us :
  timestamp_text s y mo d h mi se us -> possible y mo d h mi se us ->
  parse_datetime s = Ok (Parsed (mkdt y mo d h mi se us 0)).
Proof.
  intros T P. rewrite (timestamp_stamp _ _ _ _ _ _ _ _ T).
  unfold mk_datetime. apply fields_ok_iff in P. now rewrite P.
Qed.

Lemma parse_impossible s y mo d h mi se us :
  timestamp_text s y mo d h mi se us -> ~ possible y mo d h mi se us ->
  parse_datetime s = Raise ValueError.
Proof.
  intros T P. rewrite (timestamp_stamp _ _ _ _ _ _ _ _ T).
  unfold mk_datetime. destruct (fields_ok y mo d h mi se us) eqn:E; [|reflexivity].
  apply fields_ok_iff in E. contradiction.
Qed.

Lemma timestamp_text_dec s :
  (exists y mo d h mi se us, timestamp_text s y mo d h mi se us) \/ parse_datetime s = Ok (Unparsed s).
Proof.
  unfold parse_datetime. destruct (dt_match s) eqn:E; [|now right]. left.
  apply dt_match_inv in E as (ys & mos & ds & hs & mis & ss & dot & f & rest & -> & OK).
  destruct OK as (L1 & L2 & L3 & L4 & L5 & L6 & D1 & D2 & D3 & D4 & D5 & D6 & D7 & HD).
  do 7 eexists. unfold stamp.
  eapply ts_intro; try (apply digits_number_of_width; [discriminate|assumption|assumption]); [assumption|].
  apply digits_fraction. assumption.
Qed.

Lemma day_number_real y m d : 1 <= y -> real_date y m d -> day_number (y, m, d) (ymd2ord y m d).
Proof.
  intros Hy R. apply real_date_iff in R as [Hm Hd].
  pose proof (doy_range y m d Hm Hd) as B.
  assert (1 <= ymd2ord y m d).
  { unfold ymd2ord. pose proof (days_before_mono 1 y Hy) as M. change (days_before_year 1) with 0 in M. lia. }
  assert (E : ord2ymd (ymd2ord y m d) = (y, m, d)).
  { destruct (ord2ymd (ymd2ord y m d)) as [[y' m'] d'] eqn:E. apply ord2ymd_spec in E as (E & ? & ?).
    symmetry. apply ymd2ord_inj; auto. }
  rewrite <- E at 1. now apply day_number_of_ord.
Qed.

Lemma reads_as_iff text i :
  reads_as text i <-> exists t, parse_datetime text = Ok (Parsed t) /\ instant t = i.
Proof.
  unfold reads_as. split.
  - intros (y & mo & d & h & mi & se & us & T & P & D).
    exists (mkdt y mo d h mi se us 0). split; [now apply parse_accepts|].
    apply denotes_instant. exact D.
  - intros (t & P & I). destruct (timestamp_text_dec text) as [(y & mo & d & h & mi & se & us & T)|T]; [|congruence].
    exists y, mo, d, h, mi, se, us.
    pose proof (timestamp_stamp _ _ _ _ _ _ _ _ T) as E. rewrite P in E. unfold mk_datetime in E.
    destruct (fields_ok y mo d h mi se us) eqn:F; [|discriminate]. injection E as ->.
    apply fields_ok_iff in F. split; [assumption|]. split; [assumption|].
    destruct F as (Hy & R & TD). exists (ymd2ord y mo d). split; [apply day_number_real; [lia|assumption]|].
    split; [assumption|]. subst i. unfold instant, local_us. simpl. lia.
Qed.
