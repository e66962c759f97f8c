From Coq Require Import ZArith String Ascii List Bool Lia.
From Verif.Base Require Import Result PyStr.
From Verif.Model Require Import Duration.
From Verif.Spec Require Import Rfc5545.
Local Open Scope string_scope.
Local Open Scope Z_scope.

(** * Numbers *)

Lemma digit_ok c v : digit c v -> is_digit c = true /\ digit_val c = v.
Proof. intros H; inversion H; subst; split; reflexivity. Qed.

Lemma is_digit_digit c : is_digit c = true -> digit c (digit_val c).
Proof.
  intros H. rewrite <- (digit_char_val c H) at 1.
  pose proof (digit_val_range c H) as R. revert R. generalize (digit_val c). intros v R.
  assert (Hv : v = 0 \/ v = 1 \/ v = 2 \/ v = 3 \/ v = 4 \/ v = 5 \/ v = 6 \/ v = 7 \/ v = 8 \/ v = 9) by lia.
  repeat (destruct Hv as [->|Hv]; [vm_compute; constructor|]). subst. vm_compute. constructor.
Qed.

Lemma number_ok s n : number s n -> all_digits s = true /\ int_of s = n /\ s <> "" /\ 0 <= n.
Proof.
  induction 1 as [c v H | s n c v _ IH H].
  - apply digit_ok in H as [H1 <-]. pose proof (digit_val_range c H1). cbn [all_digits]. rewrite H1.
    repeat split; try discriminate; try lia.
  - destruct IH as (I1 & I2 & I3 & I4). apply digit_ok in H as [H1 H2].
    pose proof (digit_val_range c H1).
    rewrite all_digits_app, I1. cbn [all_digits]. rewrite H1. repeat split.
    + rewrite int_of_app, I2. unfold int_of; cbn [int_acc]. change (Z.of_nat (String.length (String c ""))) with 1. rewrite <- H2. lia.
    + destruct s; discriminate.
    + lia.
Qed.

Lemma snoc_cases (s : string) : s = "" \/ exists r c, s = r ++ String c "".
Proof.
  induction s as [|c s [->|(r & c' & ->)]]; [now left| |].
  - right. exists "", c. reflexivity.
  - right. exists (String c r), c'. reflexivity.
Qed.

Lemma number_complete s : all_digits s = true -> s <> "" -> number s (int_of s).
Proof.
  remember (String.length s) as k eqn:Hk. revert s Hk.
  induction k as [|k IH]; intros s Hk Hd Hne.
  - destruct s; [congruence|discriminate].
  - destruct (snoc_cases s) as [->|(r & c & ->)]; [congruence|].
    rewrite str_length_app in Hk. simpl in Hk.
    rewrite all_digits_app in Hd. apply andb_true_iff in Hd as [Hr Hc]. simpl in Hc.
    rewrite andb_true_r in Hc. pose proof (is_digit_digit c Hc) as Dc.
    destruct r as [|c' r].
    + simpl. replace (int_of (String c "")) with (digit_val c) by (unfold int_of; simpl; lia).
      now constructor.
    + rewrite int_of_app. unfold int_of at 2. simpl (int_acc (String c "") 0). simpl (Z.of_nat _).
      replace (int_of (String c' r) * 10 ^ 1 + digit_val c) with (10 * int_of (String c' r) + digit_val c) by lia.
      constructor; [|assumption]. apply IH; [lia|assumption|discriminate].
Qed.

Lemma number_dec n : 0 <= n -> number (dec n) n.
Proof.
  intros H. rewrite <- (int_of_dec n H) at 2.
  apply number_complete; [now apply dec_digits | now apply dec_nonempty].
Qed.

(** * Groups *)

Lemma og_take x s n r : number s n -> is_digit x = false -> opt_group x (s ++ String x r) = (n, r).
Proof.
  intros H Hx. apply number_ok in H as (D & <- & NE & _). unfold opt_group.
  rewrite span_digits_app by assumption. destruct s; [congruence|]. now rewrite Ascii.eqb_refl.
Qed.

Lemma og_other x y s n r :
  number s n -> is_digit y = false -> y <> x -> opt_group x (s ++ String y r) = (0, s ++ String y r).
Proof.
  intros H Hy N. apply number_ok in H as (D & <- & NE & _). unfold opt_group.
  rewrite span_digits_app by assumption. destruct s; [congruence|].
  destruct (Ascii.eqb y x) eqn:E; [apply Ascii.eqb_eq in E; congruence|reflexivity].
Qed.

Lemma og_nodigit x c r : is_digit c = false -> opt_group x (String c r) = (0, String c r).
Proof. intros H. unfold opt_group. simpl. now rewrite H. Qed.

Lemma og_empty x : opt_group x "" = (0, "").
Proof. reflexivity. Qed.

Lemma optT_number s n r : number s n -> opt_T (s ++ r) = s ++ r.
Proof.
  intros H. apply number_ok in H as (D & _ & NE & _). destruct s as [|c s]; [congruence|].
  simpl in *. apply andb_true_iff in D as [D _].
  destruct (Ascii.eqb c "T") eqn:E; [apply Ascii.eqb_eq in E; subst; discriminate|reflexivity].
Qed.

Lemma optT_T r : opt_T (String "T" r) = r.
Proof. reflexivity. Qed.

Definition hms (s : string) : Z :=
  let (h, s5) := opt_group "H" s in
  let (mi, s6) := opt_group "M" s5 in
  let (se, _) := opt_group "S" s6 in
  h * 3600 + mi * 60 + se.

Definition ymd (s : string) : Z * Z * Z * string :=
  let (y, s1) := opt_group "Y" s in
  let (mo, s2) := opt_group "M" s1 in
  let (d, s3) := opt_group "D" s2 in (y, mo, d, s3).

Definition grp_total (g : dur_groups) : Z :=
  (g_weeks g * 7 + g_days g + 365 * g_years g + 30 * g_months g) * us_per_day
  + (g_hours g * 3600 + g_minutes g * 60 + g_seconds g) * us_per_s.

Lemma dur_match_P s neg s0 y mo d s3 :
  opt_sign_P s = Some (neg, s0) -> ymd s0 = (y, mo, d, s3) ->
  exists g, dur_match s = Some g /\ g_neg g = neg /\
            grp_total g = (365 * y + 30 * mo + d) * us_per_day + hms (opt_T s3) * us_per_s.
Proof.
  intros H1 H2. unfold dur_match, ymd, hms in *. rewrite H1.
  destruct (opt_group "Y" s0) as [y' s1]. destruct (opt_group "M" s1) as [mo' s2].
  destruct (opt_group "D" s2) as [d' s3']. injection H2 as -> -> -> ->.
  destruct (opt_group "H" (opt_T s3)) as [h s5]. destruct (opt_group "M" s5) as [mi s6].
  destruct (opt_group "S" s6) as [se s7].
  eexists. split; [reflexivity|]. unfold grp_total. simpl. split; [reflexivity|]. lia.
Qed.

Lemma parse_total s g :
  dur_match s = Some g ->
  parse_duration (DText s) =
    match mk_td (grp_total g) with
    | Raise e => Raise e
    | Ok d => if g_neg g then mk_td (-1 * d) else Ok d
    end.
Proof.
  intros H. unfold parse_duration. rewrite H.
  match goal with |- match mk_td ?a with _ => _ end = _ => assert (E : a = grp_total g) end.
  { unfold grp_total. destruct (Z.eqb_spec (g_years g) 0) as [E1|E1];
      destruct (Z.eqb_spec (g_months g) 0) as [E2|E2]; simpl negb; rewrite ?E1, ?E2; cbv iota; nia. }
  now rewrite E.
Qed.

(** * Grammar *)

Ltac og_step :=
  first
    [ rewrite og_empty
    | erewrite og_take by (eassumption || reflexivity)
    | erewrite og_other by (eassumption || reflexivity || discriminate)
    | rewrite og_nodigit by reflexivity ].

Ltac norm := repeat first [rewrite str_app_assoc | progress (cbn [append])].

Lemma hms_second s v : dur_second s v -> hms s = v.
Proof. intros H; inversion H; subst. unfold hms. repeat (norm; og_step). lia. Qed.

Lemma hms_minute s v : dur_minute s v -> hms s = v.
Proof.
  intros H; inversion H; subst; unfold hms.
  - repeat (norm; og_step). lia.
  - match goal with H : dur_second _ _ |- _ => inversion H; subst end.
    repeat (norm; og_step). lia.
Qed.

Lemma hms_hour s v : dur_hour s v -> hms s = v.
Proof.
  intros H; inversion H; subst; unfold hms.
  - repeat (norm; og_step). lia.
  - match goal with H : dur_minute _ _ |- _ => inversion H; subst end.
    + repeat (norm; og_step). lia.
    + match goal with H : dur_second _ _ |- _ => inversion H; subst end.
      repeat (norm; og_step). lia.
Qed.

Lemma hms_time s v : dur_time s v -> hms (opt_T s) = v.
Proof.
  intros H; inversion H; subst; simpl;
    [now apply hms_hour | now apply hms_minute | now apply hms_second].
Qed.

Lemma dur_time_T t w : dur_time t w -> exists r, t = String "T" r.
Proof. intros H; inversion H; subst; eexists; reflexivity. Qed.

Definition tail_ok (t : string) : Prop := t = "" \/ exists r, t = String "T" r.

Lemma og_tail x t : tail_ok t -> opt_group x t = (0, t).
Proof. intros [->|[r ->]]; [apply og_empty | apply og_nodigit; reflexivity]. Qed.

Lemma days_tail s v t : iso_days s v -> tail_ok t ->
  exists d, v = 86400 * d /\ opt_group "D" (s ++ t) = (d, t) /\
            opt_group "M" (s ++ t) = (0, s ++ t) /\ opt_group "Y" (s ++ t) = (0, s ++ t).
Proof.
  intros H T; inversion H as [|? ? HD]; subst.
  - exists 0. simpl. rewrite !og_tail by assumption. auto.
  - inversion HD; subst. exists n. norm. repeat split.
    + now apply og_take.
    + eapply og_other; eauto; discriminate.
    + eapply og_other; eauto; discriminate.
Qed.

Lemma months_tail s v t : iso_months s v -> tail_ok t ->
  exists mo d s2, v = 86400 * (30 * mo + d) /\ opt_group "M" (s ++ t) = (mo, s2) /\
                  opt_group "D" s2 = (d, t) /\ opt_group "Y" (s ++ t) = (0, s ++ t).
Proof.
  intros H T; inversion H as [? ? HD | ? n r v' HN HD]; subst.
  - destruct (days_tail _ _ _ HD T) as (d & -> & E1 & E2 & E3).
    exists 0, d, (s ++ t). repeat split; auto; lia.
  - destruct (days_tail _ _ _ HD T) as (d & -> & E1 & E2 & E3).
    exists n, d, (r ++ t). norm. repeat split; auto; try lia.
    + now apply og_take.
    + eapply og_other; eauto; discriminate.
Qed.

Lemma ymd_years s v t : iso_years s v -> tail_ok t ->
  exists y mo d, ymd (s ++ t) = (y, mo, d, t) /\ v = 86400 * (365 * y + 30 * mo + d).
Proof.
  intros H T; inversion H as [? ? HM | ? n r v' HN HM]; subst.
  - destruct (months_tail _ _ _ HM T) as (mo & d & s2 & -> & E1 & E2 & E3).
    exists 0, mo, d. unfold ymd. rewrite E3, E1, E2. split; [reflexivity|lia].
  - destruct (months_tail _ _ _ HM T) as (mo & d & s2 & -> & E1 & E2 & E3).
    exists n, mo, d. unfold ymd. norm. erewrite og_take by (eassumption || reflexivity).
    rewrite E1, E2. split; [reflexivity|lia].
Qed.

Lemma hms_T_empty : hms (opt_T "") = 0.
Proof. reflexivity. Qed.

Lemma iso_body_match s s0 neg v :
  opt_sign_P s = Some (neg, s0) -> iso_body s0 v ->
  exists g, dur_match s = Some g /\ g_neg g = neg /\ grp_total g = v * us_per_s.
Proof.
  intros HP H; inversion H as [? ? HY | s1 v1 t w HY HT]; subst.
  - destruct (ymd_years _ _ "" HY (or_introl eq_refl)) as (y & mo & d & E & ->).
    rewrite str_app_nil in E.
    destruct (dur_match_P _ _ _ _ _ _ _ HP E) as (g & G1 & G2 & G3).
    exists g. split; [assumption|]. split; [assumption|]. rewrite G3, hms_T_empty. unfold us_per_day. lia.
  - destruct (ymd_years _ _ t HY) as (y & mo & d & E & ->).
    { right. eapply dur_time_T; eauto. }
    destruct (dur_match_P _ _ _ _ _ _ _ HP E) as (g & G1 & G2 & G3).
    exists g. split; [assumption|]. split; [assumption|]. rewrite G3, (hms_time _ _ HT). unfold us_per_day. lia.
Qed.

Lemma iso_body_nonneg s v : iso_body s v -> 0 <= v.
Proof.
  assert (S : forall s v, dur_second s v -> 0 <= v).
  { intros ? ? H; inversion H; subst. edestruct number_ok as (_ & _ & _ & ?); eauto. }
  assert (N : forall s n, number s n -> 0 <= n).
  { intros ? ? H. now apply number_ok in H. }
  assert (M : forall s v, dur_minute s v -> 0 <= v).
  { intros ? ? H; inversion H; subst; [specialize (N _ _ H0); lia|].
    specialize (N _ _ H0). specialize (S _ _ H1). lia. }
  assert (HH : forall s v, dur_hour s v -> 0 <= v).
  { intros ? ? H; inversion H; subst; [specialize (N _ _ H0); lia|].
    specialize (N _ _ H0). specialize (M _ _ H1). lia. }
  assert (T : forall s v, dur_time s v -> 0 <= v).
  { intros ? ? H; inversion H; subst; eauto. }
  assert (D : forall s v, iso_days s v -> 0 <= v).
  { intros ? ? H; inversion H; subst; [lia|]. inversion H0; subst. specialize (N _ _ H1). lia. }
  assert (Mo : forall s v, iso_months s v -> 0 <= v).
  { intros ? ? H; inversion H; subst; eauto. specialize (N _ _ H0). specialize (D _ _ H1). lia. }
  assert (Y : forall s v, iso_years s v -> 0 <= v).
  { intros ? ? H; inversion H; subst; eauto. specialize (N _ _ H0). specialize (Mo _ _ H1). lia. }
  intros H; inversion H; subst; eauto. specialize (Y _ _ H0). specialize (T _ _ H1). lia.
Qed.

Lemma td_days_bound v : 0 <= v -> td_valid (v * us_per_s) = true <-> v < 1000000000 * 86400 \/ v < 0.
Proof.
  intros H. unfold td_valid, td_days. rewrite andb_true_iff, !Z.leb_le. unfold us_per_day.
  replace (v * us_per_s / (86400 * us_per_s)) with (v / 86400)
    by (symmetry; apply Z.div_mul_cancel_r; unfold us_per_s; lia).
  pose proof (Z.div_mod v 86400). pose proof (Z.mod_pos_bound v 86400). lia.
Qed.

Lemma td_valid_abs v : Z.abs v < 999999999 * 86400 -> td_valid (v * us_per_s) = true.
Proof.
  intros H. unfold td_valid, td_days. rewrite andb_true_iff, !Z.leb_le. unfold us_per_day.
  replace (v * us_per_s / (86400 * us_per_s)) with (v / 86400)
    by (symmetry; apply Z.div_mul_cancel_r; unfold us_per_s; lia).
  pose proof (Z.div_mod v 86400). pose proof (Z.mod_pos_bound v 86400). lia.
Qed.

Lemma parse_iso s v :
  iso_duration s v -> Z.abs v < 999999999 * 86400 ->
  parse_duration (DText s) = Ok (v * us_per_s).
Proof.
  intros H B.
  assert (G : forall neg s0 v0, opt_sign_P s = Some (neg, s0) -> iso_body s0 v0 ->
              Z.abs v0 < 999999999 * 86400 ->
              parse_duration (DText s) = Ok ((if neg then - v0 else v0) * us_per_s)).
  { intros neg s0 v0 HP HB HV. destruct (iso_body_match _ _ _ _ HP HB) as (g & G1 & G2 & G3).
    rewrite (parse_total _ _ G1), G3. unfold mk_td at 1. rewrite td_valid_abs by assumption.
    rewrite G2. destruct neg; [|reflexivity].
    replace (-1 * (v0 * us_per_s)) with (- v0 * us_per_s) by lia.
    unfold mk_td. rewrite td_valid_abs; [reflexivity|lia]. }
  inversion H as [s0 v0 HB | s0 v0 HB | s0 v0 HB]; subst; simpl in G.
  - apply (G false s0 v); auto.
  - apply (G false s0 v); auto.
  - apply (G true s0 v0); auto. lia.
Qed.

Lemma rfc_iso s v : rfc_duration false s v -> iso_duration s v.
Proof.
  assert (B : forall s v, rfc_body false s v -> iso_body s v).
  { intros s' v' H; inversion H as [? ? HD | ? ? HT | ]; subst.
    - inversion HD as [? ? HY | ? ? ? ? HY HT]; subst.
      + apply ib_date. apply iy_none, im_none, id_day. assumption.
      + apply ib_datetime; [|assumption]. apply iy_none, im_none, id_day. assumption.
    - change s' with ("" ++ s'). change v' with (0 + v').
      apply ib_datetime; [|assumption]. apply iy_none, im_none, id_none. }
  intros H; inversion H; subst; constructor; auto.
Qed.

(** A week duration is silently read as zero. *)
Lemma parse_week s v : rfc_duration true s v -> parse_duration (DText s) = Ok 0.
Proof.
  assert (G : forall neg s0 n s, opt_sign_P s = Some (neg, s0 ++ "W") -> number s0 n ->
              parse_duration (DText s) = Ok 0).
  { intros neg s0 n s' HP HN.
    assert (E : ymd (s0 ++ "W") = (0, 0, 0, s0 ++ "W")).
    { unfold ymd. repeat (erewrite og_other by (eassumption || reflexivity || discriminate)). reflexivity. }
    destruct (dur_match_P _ _ _ _ _ _ _ HP E) as (g & G1 & G2 & G3).
    rewrite (optT_number _ _ _ HN) in G3.
    assert (E2 : hms (s0 ++ "W") = 0).
    { unfold hms. repeat (erewrite og_other by (eassumption || reflexivity || discriminate)). reflexivity. }
    rewrite E2 in G3. rewrite (parse_total _ _ G1), G3. simpl. destruct (g_neg g); reflexivity. }
  intros H; inversion H as [s0 v0 HB | s0 v0 HB | s0 v0 HB]; subst; inversion HB as [| | ? ? HW]; subst;
    inversion HW; subst; eapply G; try eassumption; reflexivity.
Qed.

Lemma parse_error_iff s :
  parse_duration (DText s) = Raise ValueError <->
  ~ ((exists r, s = "P" ++ r) \/ (exists r, s = "+P" ++ r) \/ (exists r, s = "-P" ++ r)
     \/ exists n v r, number n v /\ s = n ++ "W" ++ r).
Proof.
  unfold parse_duration. destruct (dur_match s) as [g|] eqn:E.
  - split.
    + unfold mk_td. intros H.
      repeat match goal with H : context [if ?c then _ else _] |- _ => destruct c end; discriminate.
    + intros N. exfalso. apply N. clear N. unfold dur_match in E.
      destruct (opt_sign_P s) as [[neg s0]|] eqn:HP.
      * clear E. destruct s as [|c s]; simpl in HP; [discriminate|].
        destruct (Ascii.eqb c "P") eqn:E1; [apply Ascii.eqb_eq in E1; subst; left; eexists; reflexivity|].
        destruct (Ascii.eqb c "+") eqn:E2; simpl in HP.
        -- apply Ascii.eqb_eq in E2; subst. destruct s as [|c' s]; [discriminate|].
           destruct (Ascii.eqb c' "P") eqn:E3; [|discriminate]. apply Ascii.eqb_eq in E3; subst.
           right; left; eexists; reflexivity.
        -- destruct (Ascii.eqb c "-") eqn:E4; [|discriminate]. apply Ascii.eqb_eq in E4; subst.
           destruct s as [|c' s]; [discriminate|].
           destruct (Ascii.eqb c' "P") eqn:E3; [|discriminate]. apply Ascii.eqb_eq in E3; subst.
           right; right; left; eexists; reflexivity.
      * destruct (span_digits s) as [a b] eqn:ES. apply span_digits_spec in ES as (-> & D & _).
        destruct a as [|c a]; [discriminate|]. destruct b as [|w b]; [discriminate|].
        destruct (Ascii.eqb w "W") eqn:EW; [|discriminate]. apply Ascii.eqb_eq in EW; subst.
        do 3 right. exists (String c a), (int_of (String c a)), b. split; [|reflexivity].
        apply number_complete; [assumption|discriminate].
  - split; [intros _ H|reflexivity]. unfold dur_match in E.
    destruct H as [(r & ->)|[(r & ->)|[(r & ->)|(n & v & r & HN & ->)]]].
    1-3: simpl in E;
      destruct (opt_group "Y" r) as [? s1]; destruct (opt_group "M" s1) as [? s2];
      destruct (opt_group "D" s2) as [? s3]; destruct (opt_group "H" (opt_T s3)) as [? s5];
      destruct (opt_group "M" s5) as [? s6]; destruct (opt_group "S" s6) as [? s7]; discriminate.
    assert (HS : opt_sign_P (n ++ "W" ++ r) = None).
    { apply number_ok in HN as (D & _ & NE & _). destruct n as [|c n]; [congruence|].
      simpl in *. apply andb_true_iff in D as [D _].
      destruct (Ascii.eqb c "P") eqn:E1; [apply Ascii.eqb_eq in E1; subst; discriminate|].
      destruct (Ascii.eqb c "+") eqn:E2; [apply Ascii.eqb_eq in E2; subst; discriminate|].
      destruct (Ascii.eqb c "-") eqn:E3; [apply Ascii.eqb_eq in E3; subst; discriminate|]. reflexivity. }
    rewrite HS in E. apply number_ok in HN as (D & _ & NE & _).
    cbn [append] in E. rewrite span_digits_app in E by (assumption || reflexivity). destruct n; [congruence|]. discriminate.
Qed.

(** * Formatting *)

Definition fmt_grp (n : Z) (x : ascii) : string :=
  if negb (n =? 0) then dec n ++ String x "" else "".

Lemma format_shape td :
  0 <= td ->
  exists d h m s, 0 <= d /\ 0 <= h < 24 /\ 0 <= m < 60 /\ 0 <= s < 60 /\
    (d * 86400 + h * 3600 + m * 60 + s) * us_per_s = td - td mod us_per_s /\
    timedeltaformat td =
      "P" ++ fmt_grp d "D" ++
      (if negb (h =? 0) || negb (m =? 0) || negb (s =? 0) then "T" else "") ++
      fmt_grp h "H" ++ fmt_grp m "M" ++ fmt_grp s "S".
Proof.
  intros H.
  exists (td_days td), (td_seconds td / 3600), (td_seconds td mod 3600 / 60), (td_seconds td mod 3600 mod 60).
  assert (S : 0 <= td_seconds td < 86400).
  { unfold td_seconds. pose proof (Z.mod_pos_bound td us_per_day eq_refl).
    split; [apply Z.div_pos; [lia|reflexivity]|]. apply Z.div_lt_upper_bound; [reflexivity|].
    unfold us_per_day in *. lia. }
  assert (D : 0 <= td_days td) by (apply Z.div_pos; [lia|reflexivity]).
  assert (H1 : 0 <= td_seconds td / 3600 < 24)
    by (split; [apply Z.div_pos; lia | apply Z.div_lt_upper_bound; lia]).
  pose proof (Z.mod_pos_bound (td_seconds td) 3600 eq_refl) as M1.
  assert (H2 : 0 <= td_seconds td mod 3600 / 60 < 60)
    by (split; [apply Z.div_pos; lia | apply Z.div_lt_upper_bound; lia]).
  pose proof (Z.mod_pos_bound (td_seconds td mod 3600) 60 eq_refl) as M2.
  repeat split; try lia.
  - pose proof (Z.div_mod (td_seconds td) 3600). pose proof (Z.div_mod (td_seconds td mod 3600) 60).
    assert (E : td_days td * 86400 + td_seconds td / 3600 * 3600 + td_seconds td mod 3600 / 60 * 60 +
            td_seconds td mod 3600 mod 60 = td_days td * 86400 + td_seconds td) by lia.
    rewrite E. unfold td_days, td_seconds.
    pose proof (Z.div_mod td us_per_day ltac:(discriminate)).
    pose proof (Z.div_mod (td mod us_per_day) us_per_s ltac:(discriminate)).
    assert (M : (td mod us_per_day) mod us_per_s = td mod us_per_s).
    { unfold us_per_day. rewrite Z.mul_comm. rewrite Z.rem_mul_r by (unfold us_per_s; lia).
      rewrite Z.mul_comm, Z.mod_add by discriminate. apply Z.mod_mod. discriminate. }
    unfold us_per_day in *. lia.
  - unfold timedeltaformat, fmt_grp, str_of_Z.
    assert (L : forall z, 0 <= z -> (z <? 0) = false) by (intros; apply Z.ltb_ge; assumption).
    rewrite !L by lia.
    destruct (td_days td =? 0); destruct (td_seconds td / 3600 =? 0);
      destruct (td_seconds td mod 3600 / 60 =? 0); destruct (td_seconds td mod 3600 mod 60 =? 0);
      simpl; rewrite ?str_app_assoc; reflexivity.
Qed.

Lemma parse_format td :
  td_valid td = true ->
  parse_duration (DText (timedeltaformat td)) = Ok (if td <? 0 then 0 else td - td mod us_per_s).
Proof.
  intros V. destruct (Z.ltb_spec td 0) as [N|N].
  - (* negative: "P-..." *)
    assert (D : td_days td < 0).
    { unfold td_days. apply Z.div_lt_upper_bound; [reflexivity|lia]. }
    assert (E : exists r, timedeltaformat td = "P-" ++ r).
    { unfold timedeltaformat, str_of_Z. destruct (Z.eqb_spec (td_days td) 0); [lia|].
      destruct (Z.ltb_spec (td_days td) 0); [|lia]. simpl negb. cbv iota.
      repeat match goal with |- context [if ?c then _ else _] => destruct c end;
        eexists; cbn [append]; rewrite ?str_app_assoc; reflexivity. }
    destruct E as [r ->].
    assert (HP : opt_sign_P ("P-" ++ r) = Some (false, String "-" r)) by reflexivity.
    assert (E : ymd (String "-" r) = (0, 0, 0, String "-" r)).
    { unfold ymd. repeat rewrite og_nodigit by reflexivity. reflexivity. }
    destruct (dur_match_P _ _ _ _ _ _ _ HP E) as (g & G1 & G2 & G3).
    assert (E2 : hms (opt_T (String "-" r)) = 0).
    { simpl. unfold hms. repeat rewrite og_nodigit by reflexivity. reflexivity. }
    rewrite E2 in G3. rewrite (parse_total _ _ G1), G3, G2. reflexivity.
  - destruct (format_shape td N) as (d & h & m & s & Hd & Hh & Hm & Hs & Hsum & ->).
    set (t := (if negb (h =? 0) || negb (m =? 0) || negb (s =? 0) then "T" else "") ++
      fmt_grp h "H" ++ fmt_grp m "M" ++ fmt_grp s "S").
    assert (HP : opt_sign_P ("P" ++ fmt_grp d "D" ++ t) = Some (false, fmt_grp d "D" ++ t)) by reflexivity.
    assert (T : tail_ok t).
    { unfold t, fmt_grp. destruct (h =? 0); destruct (m =? 0); destruct (s =? 0); simpl;
        ((right; eexists; reflexivity) || (left; reflexivity)). }
    assert (E : ymd (fmt_grp d "D" ++ t) = (0, 0, d, t)).
    { unfold ymd, fmt_grp. destruct (Z.eqb_spec d 0) as [->|Nd]; simpl negb; cbv iota.
      - cbn [append]. rewrite !og_tail by assumption. reflexivity.
      - pose proof (number_dec d Hd) as ND. norm.
        do 2 (erewrite og_other by (eassumption || reflexivity || discriminate)).
        erewrite og_take by (eassumption || reflexivity). reflexivity. }
    assert (E2 : hms (opt_T t) = h * 3600 + m * 60 + s).
    { assert (Hh' : 0 <= h) by lia. assert (Hm' : 0 <= m) by lia. assert (Hs' : 0 <= s) by lia.
      pose proof (number_dec h Hh') as Nh. pose proof (number_dec m Hm') as Nm.
      pose proof (number_dec s Hs') as Ns.
      unfold t, fmt_grp.
      destruct (Z.eqb_spec h 0) as [->|]; destruct (Z.eqb_spec m 0) as [->|];
        destruct (Z.eqb_spec s 0) as [->|]; cbn [negb orb]; cbv iota; norm; rewrite ?optT_T; cbn [opt_T];
        unfold hms; repeat (og_step; norm); lia. }
    destruct (dur_match_P _ _ _ _ _ _ _ HP E) as (g & G1 & G2 & G3).
    rewrite E2 in G3.
    assert (G4 : grp_total g = td - td mod us_per_s).
    { rewrite G3, <- Hsum. unfold us_per_day. lia. }
    rewrite (parse_total _ _ G1), G4, G2. unfold mk_td.
    assert (V2 : td_valid (td - td mod us_per_s) = true).
    { rewrite <- Hsum. set (v := d * 86400 + h * 3600 + m * 60 + s) in *.
      assert (0 <= v) by (unfold v; lia). apply td_days_bound; [assumption|]. left.
      unfold td_valid in V. apply andb_true_iff in V as [_ V]. apply Z.leb_le in V. unfold td_days in V.
      assert (td < 1000000000 * us_per_day).
      { pose proof (Z.div_mod td us_per_day ltac:(discriminate)).
        pose proof (Z.mod_pos_bound td us_per_day eq_refl). nia. }
      pose proof (Z.mod_pos_bound td us_per_s eq_refl). unfold us_per_day in *.
      assert (v * us_per_s <= td) by lia. unfold us_per_s in *. lia. }
    rewrite V2. reflexivity.
Qed.
