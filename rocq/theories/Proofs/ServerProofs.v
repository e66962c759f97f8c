From Coq Require Import ZArith String List Bool Lia.
From Verif.Base Require Import Result Dict PyStr ListExtra.
From Verif.Model Require Import Objects EventTime Members EventService Server.
From Verif.Spec Require Import EventSpec QueueSpec AddSpec.
From Verif.Proofs Require Import EventTimeProofs QueueProofs QueueHistory.
Import ListNotations.
Local Open Scope string_scope.
Local Open Scope Z_scope.

Lemma inb_In x l : inb x l = true <-> In x l.
Proof.
  unfold inb. rewrite existsb_exists. split.
  - intros (y & I & E). apply String.eqb_eq in E. congruence.
  - intros I. exists x. split; [assumption|apply String.eqb_refl].
Qed.

Lemma types_agree x : In x SIGNAL_TYPE_values <-> In x openadr_signal_types.
Proof. unfold SIGNAL_TYPE_values, openadr_signal_types. simpl. tauto. Qed.
Lemma names_agree x : In x SIGNAL_NAME_values <-> In x openadr_signal_names.
Proof. unfold SIGNAL_NAME_values, openadr_signal_names. simpl. tauto. Qed.

Lemma choose_targets_for v a : targets_for v a (choose_targets v a).
Proof.
  unfold choose_targets. destruct (aa_target a) eqn:T; [now constructor|]. destruct (aa_tbt a) eqn:B; [now constructor|].
  destruct (aa_targets a) as [[l|t]|] eqn:L; [now apply tf_list|now apply tf_one|now apply tf_ven].
Qed.
Lemma targets_for_fun v a l m : targets_for v a l -> targets_for v a m -> l = m.
Proof. intros H K. destruct H, K; congruence. Qed.

Lemma make_aware_same local i : same_interval local i (make_aware local i).
Proof. unfold same_interval, make_aware. destruct (iv_start i) eqn:E; simpl; rewrite ?E; repeat split; eexists; split; reflexivity || assumption. Qed.

Definition time_of (i : interval) : Z * Z := (ticks (iv_start i), iv_duration i).
Lemma aware_times local l : map (fun i => (iv_start i, iv_duration i)) (map (make_aware local) l) =
  map (fun p => (Aware (fst p), snd p)) (map time_of (map (make_aware local) l)).
Proof.
  rewrite !map_map. apply map_ext. intros i. unfold time_of, make_aware. destruct (iv_start i) eqn:E; simpl; rewrite ?E; reflexivity.
Qed.

Lemma period_ok local l : l <> [] ->
  exists s d, get_active_period_from_intervals (map (fun i => (iv_start i, iv_duration i)) (map (make_aware local) l)) = Ok (Aware s, d) /\
    covering (map time_of (map (make_aware local) l)) s (s + d).
Proof.
  intros NE. rewrite aware_times. set (m := map time_of (map (make_aware local) l)).
  assert (NM : m <> []) by (unfold m; destruct l; [congruence|discriminate]). clearbody m.
  apply active_period_spec; try reflexivity.
  - intros a b E. now injection E.
  - intros w d I. apply in_map_iff in I as ([t d'] & E & _). injection E as <- _. eauto.
  - destruct m; [congruence|discriminate].
  - rewrite map_map. simpl. rewrite <- (map_id m) at 2. apply map_ext. now intros [].
Qed.

Lemma single_period s d : get_active_period_from_intervals [(Aware s, d)] = Ok (Aware s, d).
Proof. unfold get_active_period_from_intervals. simpl. do 2 f_equal. lia. Qed.

Lemma event_of_args_raise local gen now v a x : event_of_args local gen now v a = Raise x ->
  x = ValueError /\ forall cb ok l, ~ acceptable a cb ok l.
Proof.
  unfold event_of_args. cbv zeta. destruct (inb (aa_response a) _) eqn:R; cbn [negb].
  2:{ intros H. injection H as <-. split; [reflexivity|]. intros cb ok l (K & _).
      assert (inb (aa_response a) ["always"; "never"] = true) by (apply inb_In; destruct K as [->| ->]; simpl; auto). congruence. }
  destruct (inb (aa_type a) SIGNAL_TYPE_values) eqn:T; cbn [negb].
  2:{ intros H. injection H as <-. split; [reflexivity|]. intros cb ok l (_ & K & _). apply types_agree, inb_In in K. congruence. }
  destruct (negb (inb (aa_name a) SIGNAL_NAME_values) && negb (startswith "x-" (aa_name a))) eqn:N.
  { intros H. injection H as <-. split; [reflexivity|]. intros cb ok l (_ & _ & K & _). apply andb_prop in N as [N1 N2].
    apply negb_true_iff in N1, N2. destruct K as [K|K]; [apply names_agree, inb_In in K; congruence|].
    apply startswith_spec in K. congruence. }
  destruct (aa_intervals a) as [[|i l]|] eqn:I.
  - intros H. injection H as <-. split; [reflexivity|]. intros cb ok l (_ & _ & _ & K & NE & _). rewrite I in K. injection K as <-. congruence.
  - destruct (period_ok local (i :: l)) as (st & d & -> & _); [discriminate|]. simpl bind. cbv beta iota.
    destruct (determine_event_status _ _ _). discriminate.
  - intros H. injection H as <-. split; [reflexivity|]. intros cb ok l (_ & _ & _ & K & _). congruence.
Qed.

Lemma event_of_args_ok local gen now v a e : event_of_args local gen now v a = Ok e ->
  exists l start dur, aa_intervals a = ListOfIntervals l /\ l <> [] /\
    (aa_response a = "always" \/ aa_response a = "never") /\ In (aa_type a) openadr_signal_types /\ valid_name (aa_name a) /\
    covering (map time_of (map (make_aware local) l)) start (start + dur) /\
    get_active_period_from_intervals (map (fun i => (iv_start i, iv_duration i)) (map (make_aware local) l)) = Ok (Aware start, dur) /\
    ev_signals e = [mk_sg (map (make_aware local) l) (aa_name a) (aa_type a) (SStr (gen 1%nat)) None None None None] /\
    ev_targets e = Some (choose_targets v a) /\ ev_tbt e = Some (group_targets_by_type (choose_targets v a)) /\
    ev_response e = aa_response a /\ ev_mod e = 0 /\ ed_context (ev_descriptor e) = aa_context a /\
    ed_priority (ev_descriptor e) = Some 0 /\ ed_test (ev_descriptor e) = false /\ ed_comment (ev_descriptor e) = None /\
    ev_id e = match aa_event_id a with Some id => if truthy_id id then id else SStr (gen 0%nat) | None => SStr (gen 0%nat) end /\
    ev_period e = mk_ap (Aware start) dur (aa_notification a) (aa_ramp_up a) (aa_recovery a) /\
    implied start dur (aa_ramp_up a) (now 2%nat) (ev_status e).
Proof.
  unfold event_of_args. cbv zeta. destruct (inb (aa_response a) _) eqn:R; cbn [negb]; [|discriminate].
  destruct (inb (aa_type a) SIGNAL_TYPE_values) eqn:T; cbn [negb]; [|discriminate].
  destruct (negb (inb (aa_name a) SIGNAL_NAME_values) && negb (startswith "x-" (aa_name a))) eqn:N; [discriminate|].
  destruct (aa_intervals a) as [[|i l]|] eqn:I; [discriminate| |discriminate].
  destruct (period_ok local (i :: l)) as (st & d & G & COV); [discriminate|]. rewrite G. simpl bind. cbv beta iota.
  pose proof (determine_implied local (now 2%nat) (mk_ap (Aware st) d (aa_notification a) (aa_ramp_up a) (aa_recovery a))) as IMP.
  pose proof (determine_period local (now 2%nat) (mk_ap (Aware st) d (aa_notification a) (aa_ramp_up a) (aa_recovery a))) as PER.
  destruct (determine_event_status _ _ _) as [stat per]. simpl in IMP, PER. intros H. injection H as <-.
  exists (i :: l), st, d. split; [reflexivity|]. split; [discriminate|]. split.
  { apply inb_In in R. simpl in R. intuition congruence. }
  split; [now apply types_agree, inb_In|]. split.
  { apply andb_false_iff in N as [N|N]; apply negb_false_iff in N; [left; now apply names_agree, inb_In|right; now apply startswith_spec]. }
  split; [assumption|]. split; [exact G|]. subst per. repeat split; try reflexivity. exact IMP.
Qed.

Lemma prepare_of_args local gen now v a e : event_of_args local gen now v a = Ok e ->
  prepare e = Ok (set_period (mk_ap (ap_start (ev_period e)) (ap_duration (ev_period e)) None None None) e).
Proof.
  intros H. apply event_of_args_ok in H as (l & st & d & _ & _ & _ & _ & _ & _ & G & SG & _ & _ & _ & _ & _ & PR & _ & _ & _ & PER & _).
  unfold prepare, period_of_signals. rewrite SG. cbn [mapM sg_intervals]. rewrite G. cbn [bind]. rewrite single_period. cbn [bind].
  rewrite PER. cbn [ap_start ap_duration].
  set (p := mk_ap (Aware st) d None None None).
  change (ed_priority (ev_descriptor (set_period p e))) with (ed_priority (ev_descriptor e)). rewrite PR.
  f_equal. destruct e as [[] ? ? ? ? ?]. simpl in PR. subst. reflexivity.
Qed.

Lemma truthy_id_spec id : truthy_id id = false <-> empty_id id.
Proof.
  unfold empty_id. destruct id as [|b|n|m k|s]; simpl.
  - split; [now left|reflexivity].
  - split; [intros ->; auto|intros [K|[K|[K|[K|(n & K)]]]]; congruence].
  - rewrite negb_false_iff, Z.eqb_eq. split; [intros ->; auto|intros [K|[K|[K|[K|(m & K)]]]]; congruence].
  - rewrite negb_false_iff, Z.eqb_eq. split; [intros ->; do 4 right; eauto|intros [K|[K|[K|[K|(m' & K)]]]]; congruence].
  - rewrite negb_false_iff, String.eqb_eq. split; [intros ->; auto|intros [K|[K|[K|[K|(n & K)]]]]; congruence].
Qed.
