From Coq Require Import ZArith String List Bool Lia Sorting.Sorted Sorting.Permutation.
From Verif.Base Require Import Result Dict PyStr ListExtra.
From Verif.Model Require Import Objects EventTime.
From Verif.Spec Require Import EventSpec.
Import ListNotations.
Local Open Scope Z_scope.

(** ** Status *)
Lemma status_eqb_eq a b : status_eqb a b = true <-> a = b.
Proof. unfold status_eqb. destruct (status_eq_dec a b); split; congruence. Qed.

Lemma implied_fun start dur ramp now a b : implied start dur ramp now a -> implied start dur ramp now b -> a = b.
Proof.
  intros H K; destruct H, K; try reflexivity; try lia; subst;
    repeat match goal with
    | H : forall r, Some ?x = Some r -> _ |- _ => specialize (H x eq_refl)
    | H : 0 < ?d -> _, H' : 0 < ?d |- _ => specialize (H H')
    end; lia.
Qed.

Lemma determine_implied local now p : implied (aware_start local p) (ap_duration p) (ap_ramp_up p) now (fst (determine_event_status local now p)).
Proof.
  unfold determine_event_status. set (s := aware_start local p).
  destruct ((s + ap_duration p <=? now) && (0 <? ap_duration p)) eqn:E1; simpl.
  - apply andb_true_iff in E1 as [A B]. apply imp_completed; lia.
  - assert (B : 0 < ap_duration p -> now < s + ap_duration p).
    { intros D. apply andb_false_iff in E1 as [E1|E1]; lia. }
    destruct (s <=? now) eqn:E2; simpl; [apply imp_active; [lia|assumption]|].
    destruct (ap_ramp_up p) as [r|] eqn:R.
    + destruct (s - r <=? now) eqn:E3; simpl; [eapply imp_near; [reflexivity|lia..]|apply imp_far; [lia|]; intros r' E; injection E as <-; lia].
    + simpl. apply imp_far; [lia|]. discriminate.
Qed.

Lemma determine_period local now p : snd (determine_event_status local now p) = normalised local p.
Proof.
  unfold determine_event_status. destruct (_ && _); [reflexivity|]. destruct (_ <=? now); [reflexivity|].
  destruct (ap_ramp_up p); [|reflexivity]. now destruct (_ <=? now).
Qed.

Lemma starts_aware local p t : starts_at local (ap_start p) t <-> t = aware_start local p.
Proof. unfold starts_at, aware_start. now destruct (ap_start p). Qed.

Lemma refresh_refreshed local now now' e : refreshed local now now' e (refresh local now now' e).
Proof.
  unfold refresh.
  destruct (status_eq_dec (ev_status e) Cancelled) as [C|C].
  - rewrite C. constructor; try reflexivity; try congruence.
    destruct (status_eq_dec (ev_status e) (ev_status e)); congruence.
  - destruct (determine_event_status local now (ev_period e)) as [st p'] eqn:D.
    pose proof (determine_implied local now (ev_period e)) as I. pose proof (determine_period local now (ev_period e)) as P. rewrite D in I, P. simpl in I, P. subst p'.
    assert (E : match ev_status e with
                | Cancelled => e
                | _ => if status_eqb (ev_status e) st then set_period (normalised local (ev_period e)) e
                       else set_created now' (set_status st (set_period (normalised local (ev_period e)) e)) end
       = if status_eqb (ev_status e) st then set_period (normalised local (ev_period e)) e
                       else set_created now' (set_status st (set_period (normalised local (ev_period e)) e)))
      by (destruct (ev_status e); try reflexivity; congruence).
    replace (match ev_status e with Cancelled => e | _ => _ end) with
      (if status_eqb (ev_status e) st then set_period (normalised local (ev_period e)) e
                       else set_created now' (set_status st (set_period (normalised local (ev_period e)) e)))
      by (destruct (ev_status e); try reflexivity; congruence).
    clear E D.
    destruct (status_eqb (ev_status e) st) eqn:Q.
    + apply status_eqb_eq in Q. constructor; try reflexivity; try congruence.
      * intros _ t T. apply starts_aware in T. subst t. split; [|reflexivity]. unfold ev_status in *. simpl. now rewrite Q.
      * unfold ev_status; simpl. destruct (status_eq_dec _ _); congruence.
    + assert (N : ev_status e <> st) by (intros E; apply status_eqb_eq in E; congruence).
      constructor; try reflexivity; try congruence.
      * intros _ t T. apply starts_aware in T. subst t. split; [exact I|reflexivity].
      * unfold ev_status in *; simpl. destruct (status_eq_dec _ _); congruence.
Qed.

(** The relation determines the result. *)
Lemma refreshed_fun local now now' e a b : refreshed local now now' e a -> refreshed local now now' e b -> a = b.
Proof.
  intros A B.
  destruct (status_eq_dec (ev_status e) Cancelled) as [C|C].
  - rewrite (rf_cancelled _ _ _ _ _ A C). now rewrite (rf_cancelled _ _ _ _ _ B C).
  - destruct (rf_status _ _ _ _ _ A C (aware_start local (ev_period e)) ltac:(now apply starts_aware)) as [IA SA].
    destruct (rf_status _ _ _ _ _ B C (aware_start local (ev_period e)) ltac:(now apply starts_aware)) as [IB SB].
    assert (St : ev_status a = ev_status b) by (eapply implied_fun; eassumption).
    assert (Cr : ed_created (ev_descriptor a) = ed_created (ev_descriptor b)).
    { rewrite (rf_created _ _ _ _ _ A), (rf_created _ _ _ _ _ B), St. reflexivity. }
    destruct A, B. destruct a as [[] ? ? ? [] ?], b as [[] ? ? ? [] ?]. unfold ev_status, ev_id, ev_mod in *. simpl in *. congruence.
Qed.

Lemma refresh_all_nth local clock l : forall i n e, nth_error l n = Some e ->
  nth_error (refresh_all local clock i l) n = Some (refresh local (fst (clock (i + n)%nat)) (snd (clock (i + n)%nat)) e).
Proof.
  induction l as [|x l IH]; intros i n e H; [destruct n; discriminate|].
  destruct n as [|n]; simpl in *; [rewrite Nat.add_0_r; congruence|]. rewrite (IH (S i) n e H). now rewrite Nat.add_succ_r.
Qed.

Lemma refresh_all_length local clock l : forall i, length (refresh_all local clock i l) = length l.
Proof. induction l as [|x l IH]; intros i; simpl; [reflexivity|]. now rewrite IH. Qed.

(** ** Active periods *)
Lemma min_when_spec w l : forall m, (forall x, In x l -> same_kind w x = true) -> min_when w l = Ok m <->
  (In m (w :: l) /\ (forall x, In x (w :: l) -> ticks m <= ticks x)).
Proof.
  revert w; induction l as [|x l IH]; intros w m K; simpl.
  - split.
    + intros H; injection H as <-. split; [now left|]. intros x [<-|[]]. lia.
    + intros [[->|[]] _]. reflexivity.
  - rewrite (K x) by now left.
    assert (Kx : same_kind w x = true) by (apply K; now left).
    rewrite IH.
    + destruct (ticks x <? ticks w) eqn:L; simpl; split; intros [I M]; (split; [|]).
      * tauto.
      * intros y [<-|[<-|J]]; [pose proof (M x (or_introl eq_refl)); lia|apply M; now left|apply M; now right].
      * destruct I as [<-|I]; [|tauto]. pose proof (M x (or_intror (or_introl eq_refl))). lia.
      * intros y [<-|J]; apply M; auto.
      * tauto.
      * intros y [<-|[<-|J]]; [apply M; now left| |apply M; now right]. pose proof (M w (or_introl eq_refl)). lia.
      * destruct I as [<-|[<-|I]]; [now left| |tauto]. left. pose proof (M w (or_introl eq_refl)).
        assert (ticks x = ticks w) by lia. destruct x, w; simpl in *; congruence.
      * intros y [<-|J]; apply M; auto.
    + intros y J. assert (same_kind w y = true) by (apply K; now right).
      destruct (ticks x <? ticks w); destruct w, x, y; simpl in *; congruence.
Qed.

Lemma min_when_mixed w l : (exists x, In x l /\ same_kind w x = false) -> min_when w l = Raise TypeError.
Proof.
  revert w; induction l as [|y l IH]; intros w (x & I & K); [contradiction|]. simpl.
  destruct (same_kind w y) eqn:E; [|reflexivity].
  destruct I as [->|I]; [congruence|]. apply IH. exists x. split; [assumption|].
  destruct (ticks y <? ticks w); destruct w, x, y; simpl in *; congruence.
Qed.

Lemma max_Z_spec m l : In (max_Z m l) (m :: l) /\ forall x, In x (m :: l) -> x <= max_Z m l.
Proof.
  revert m; induction l as [|y l IH]; intros m; simpl.
  - split; [now left|]. intros x [<-|[]]. lia.
  - destruct (IH (if m <? y then y else m)) as [I M]. destruct (m <? y) eqn:L; split.
    + destruct I as [E|I]; [right; left; congruence|tauto].
    + intros x [<-|[<-|J]]; [pose proof (M y (or_introl eq_refl)); lia|apply M; now left|apply M; now right].
    + destruct I as [E|I]; [now left|tauto].
    + intros x [<-|[<-|J]]; [apply M; now left|pose proof (M m (or_introl eq_refl)); lia|apply M; now right].
Qed.

Lemma active_period_spec l k (mk : Z -> when) : (forall a b, mk a = mk b -> a = b) -> (forall t, ticks (mk t) = t) ->
  (forall a b, same_kind (mk a) (mk b) = true) ->
  (forall w d, In (w, d) l -> exists t, w = mk t) -> l <> [] ->
  map (fun p => (ticks (fst p), snd p)) l = k ->
  exists s d, get_active_period_from_intervals l = Ok (mk s, d) /\ covering k s (s + d).
Proof.
  intros INJ TK SK ALL NE <-. destruct l as [|[w d] r]; [congruence|]. simpl.
  destruct (ALL w d (or_introl eq_refl)) as (t & ->).
  assert (Kr : forall x, In x (map fst r) -> same_kind (mk t) x = true).
  { intros x I. apply in_map_iff in I as ([x' d'] & <- & I). simpl. destruct (ALL x' d' (or_intror I)) as (t' & ->). apply SK. }
  assert (ME : exists m, min_when (mk t) (map fst r) = Ok m).
  { revert Kr SK. generalize (mk t). generalize (map fst r). clear. induction l as [|x l IH]; intros w K SK; simpl; [eauto|].
    rewrite K by now left. apply IH; [|assumption]. intros y I.
    assert (A : same_kind w x = true) by (apply K; now left). assert (B : same_kind w y = true) by (apply K; now right).
    destruct (ticks x <? ticks w); destruct w, x, y; simpl in *; congruence. }
  destruct ME as (m & ME). rewrite ME. simpl. apply (min_when_spec (mk t) (map fst r) m Kr) in ME as [IM MM].
  assert (EM : exists s, m = mk s).
  { destruct IM as [<-|IM]; [eauto|]. apply in_map_iff in IM as ([x d'] & <- & I). simpl. apply (ALL x d'). now right. }
  destruct EM as (s & ->).
  destruct (max_Z_spec (ticks (mk t) + d - ticks (mk s)) (map (fun p => ticks (fst p) + snd p - ticks (mk s)) r)) as [IX MX].
  set (D := max_Z _ _) in *. exists s, D. split; [reflexivity|]. pose proof (TK s) as Ts. pose proof (TK t) as Tt.
  split; [|split].
  - destruct IM as [E|I].
    + exists d. left. apply INJ in E. subst. f_equal. assumption.
    + apply in_map_iff in I as ([x d'] & E & I). simpl in E; subst x. exists d'. right. apply in_map_iff. exists (mk s, d'). split; [simpl; now f_equal|assumption].
  - destruct IX as [E|I].
    + exists t, d. split; [left; now f_equal|]. lia.
    + apply in_map_iff in I as ([x d'] & E & I). simpl in E. exists (ticks x), d'. split; [right; apply in_map_iff; now exists (x, d')|]. lia.
  - intros s' d' [E|I].
    + injection E as <- <-. split.
      * specialize (MM (mk t) (or_introl eq_refl)). lia.
      * specialize (MX _ (or_introl eq_refl)). lia.
    + apply in_map_iff in I as ([x dx] & E & I). simpl in E. injection E as <- <-. split.
      * rewrite <- Ts. apply MM. right. apply in_map_iff. now exists (x, dx).
      * assert (J : In (ticks x + dx - ticks (mk s)) (map (fun p => ticks (fst p) + snd p - ticks (mk s)) r)) by (apply in_map_iff; now exists (x, dx)).
        specialize (MX _ (or_intror J)). lia.
Qed.

Lemma covering_fun l s e s' e' : covering l s e -> covering l s' e' -> s = s' /\ e = e'.
Proof.
  intros ((d & I) & (a & b & J & E) & M) ((d' & I') & (a' & b' & J' & E') & M').
  pose proof (M _ _ I'). pose proof (M' _ _ I). pose proof (M _ _ J'). pose proof (M' _ _ J). lia.
Qed.

Lemma covering_ext l m s e : (forall p, In p l <-> In p m) -> covering l s e -> covering m s e.
Proof.
  intros H ((d & I) & (a & b & J & E) & M). split; [exists d; now apply H|]. split; [exists a, b; split; [now apply H|assumption]|].
  intros. apply M. now apply H.
Qed.

(** ** Sorting *)
Section SortProofs.
Context {A : Type} (lt : A -> A -> bool).

Lemma insert_perm x l : Permutation (x :: l) (insert lt x l).
Proof.
  induction l as [|y l IH]; simpl; [reflexivity|]. destruct (lt y x); [|reflexivity].
  eapply perm_trans; [apply perm_swap|]. now apply perm_skip.
Qed.

Lemma sort_perm l : Permutation l (sort lt l).
Proof. induction l as [|x l IH]; simpl; [reflexivity|]. rewrite IH at 1. apply insert_perm. Qed.

Lemma sort_In x l : In x (sort lt l) <-> In x l.
Proof. split; apply Permutation_in; [symmetry|]; apply sort_perm. Qed.

(** not (b < a) *)
Definition le (a b : A) : Prop := lt b a = false.

Context (asym : forall a b, lt a b = true -> lt b a = false)
        (trans : forall a b c, le a b -> le b c -> le a c).

Lemma insert_sorted x l : StronglySorted le l -> StronglySorted le (insert lt x l).
Proof.
  induction l as [|y l IH]; simpl; intros S; [repeat constructor|].
  inversion S as [|? ? S' F]; subst. destruct (lt y x) eqn:E.
  - constructor; [auto|]. rewrite Forall_forall in *. intros z I.
    apply (Permutation_in _ (Permutation_sym (insert_perm x l))) in I. destruct I as [<-|I]; [|auto]. now apply asym.
  - constructor; [assumption|]. constructor; [exact E|]. rewrite Forall_forall in *. intros z I. eapply trans; [exact E|]. now apply F.
Qed.

Lemma sort_sorted l : StronglySorted le (sort lt l).
Proof. induction l as [|x l IH]; simpl; [constructor|]. now apply insert_sorted. Qed.

(** Stability: elements none of which is less than another keep their order. *)
Lemma insert_stable (p : A -> bool) x l : (forall a b, p a = true -> p b = true -> lt a b = false) ->
  filter p (insert lt x l) = filter p (x :: l).
Proof.
  intros H. induction l as [|y l IH]; [reflexivity|]. simpl. destruct (lt y x) eqn:E; [|reflexivity].
  simpl. rewrite IH. simpl. destruct (p y) eqn:Py, (p x) eqn:Px; try reflexivity.
  rewrite (H y x Py Px) in E. discriminate.
Qed.

Lemma sort_stable (p : A -> bool) l : (forall a b, p a = true -> p b = true -> lt a b = false) ->
  filter p (sort lt l) = filter p l.
Proof.
  intros H. induction l as [|x l IH]; [reflexivity|]. cbn [sort]. rewrite insert_stable by assumption. simpl. now rewrite IH.
Qed.
End SortProofs.

Lemma StronglySorted_filter {A} (R : A -> A -> Prop) p l : StronglySorted R l -> StronglySorted R (filter p l).
Proof.
  induction 1 as [|x l S IH F]; simpl; [constructor|]. destruct (p x); [|assumption]. constructor; [assumption|].
  rewrite Forall_forall in *. intros y I. apply filter_In in I as [I _]. auto.
Qed.

Lemma StronglySorted_lex {A} (key : A -> Z) (R : A -> A -> Prop) l :
  StronglySorted (fun a b => key a <= key b) l ->
  (forall s, StronglySorted R (filter (fun a => key a =? s) l)) ->
  StronglySorted (fun a b => key a < key b \/ (key a = key b /\ R a b)) l.
Proof.
  induction 1 as [|x l S IH F]; intros H; constructor.
  - apply IH. intros s. specialize (H s). simpl in H. destruct (key x =? s); [now inversion H|assumption].
  - rewrite Forall_forall in *. intros y I. specialize (F y I).
    destruct (Z.eq_dec (key x) (key y)) as [E|N]; [right|left; lia]. split; [assumption|].
    specialize (H (key x)). simpl in H. rewrite Z.eqb_refl in H. inversion H as [|? ? _ FF]; subst. rewrite Forall_forall in FF.
    apply FF. apply filter_In. split; [assumption|]. lia.
Qed.

Lemma StronglySorted_app {A} (R : A -> A -> Prop) l m : StronglySorted R l -> StronglySorted R m ->
  (forall a b, In a l -> In b m -> R a b) -> StronglySorted R (l ++ m)%list.
Proof.
  induction 1 as [|x l S IH F]; intros SM H; simpl; [assumption|]. constructor.
  - apply IH; [assumption|]. intros; apply H; [now right|assumption].
  - rewrite Forall_forall in *. intros y I. apply in_app_iff in I as [I|I]; [auto|]. apply H; [now left|assumption].
Qed.

Lemma StronglySorted_impl {A} (R S : A -> A -> Prop) l : (forall a b, In a l -> In b l -> R a b -> S a b) -> StronglySorted R l -> StronglySorted S l.
Proof.
  intros H K. induction K as [|x l K IH F]; constructor.
  - apply IH. intros; apply H; auto; now right.
  - rewrite Forall_forall in *. intros y I. apply H; [now left|now right|auto].
Qed.

(** ** order_events *)
Section OrderProofs.
Context {A : Type} (look : A -> event).

Definition aware_of (a : A) : Prop := has_aware_start (look a).

Lemma comparable_aware l : (forall a, In a l -> aware_of a) -> comparable (map (fun a => ev_start (look a)) l) = true.
Proof.
  intros H. unfold comparable. apply orb_true_iff. left. apply forallb_forall. intros w I.
  apply in_map_iff in I as (a & <- & I). destruct (H a I) as (t & E). unfold ev_start. now rewrite E.
Qed.

Lemma event_priority_value e : event_priority e = priority_value e.
Proof. unfold event_priority, priority_value. destruct (ed_priority (ev_descriptor e)) as [[| |]|]; reflexivity. Qed.

Lemma prio_lt_spec a b : prio_lt (event_priority a) (event_priority b) = true <-> higher_priority a b.
Proof.
  unfold prio_lt, higher_priority. rewrite !event_priority_value.
  destruct (priority_value a), (priority_value b); try (split; [discriminate|tauto]); try tauto. apply Z.ltb_lt.
Qed.

Lemma start_lt_spec a b : start_lt look a b = true <-> start_time (look a) < start_time (look b).
Proof. unfold start_lt, start_time, ev_start, ticks. destruct (ap_start _), (ap_start _); lia. Qed.

Lemma start_le a b : le (start_lt look) a b <-> start_time (look a) <= start_time (look b).
Proof.
  unfold le. destruct (start_lt look b a) eqn:E.
  - apply start_lt_spec in E. split; [discriminate|lia].
  - assert (~ start_time (look b) < start_time (look a)) by (intros H; apply start_lt_spec in H; congruence). split; [lia|reflexivity].
Qed.

Definition plt (a b : A) := prio_lt (event_priority (look a)) (event_priority (look b)).

Lemma plt_le a b : le plt a b <-> ~ higher_priority (look b) (look a).
Proof. unfold le, plt. rewrite <- prio_lt_spec. destruct (prio_lt _ _); split; congruence. Qed.

Lemma plt_asym a b : plt a b = true -> plt b a = false.
Proof.
  unfold plt, prio_lt. destruct (event_priority (look a)), (event_priority (look b)); try discriminate; try reflexivity. lia.
Qed.

Lemma plt_trans a b c : le plt a b -> le plt b c -> le plt a c.
Proof.
  unfold le, plt, prio_lt. destruct (event_priority (look a)), (event_priority (look b)), (event_priority (look c)); try discriminate; try reflexivity; lia.
Qed.

Lemma start_asym a b : start_lt look a b = true -> start_lt look b a = false.
Proof. unfold start_lt. lia. Qed.
Lemma start_trans a b c : le (start_lt look) a b -> le (start_lt look) b c -> le (start_lt look) a c.
Proof. rewrite !start_le. lia. Qed.

Lemma active_spec a : is_active look a = true <-> ev_status (look a) = Active.
Proof. apply status_eqb_eq. Qed.

Lemma arrange_ok l : (forall a, In a l -> aware_of a) ->
  arrange look l = Ok (sort (start_lt look) (sort plt (filter (is_active look) l))
                       ++ sort (start_lt look) (filter (fun a => negb (is_active look a)) l))%list.
Proof.
  intros H. unfold arrange, sort_by_start. fold plt. rewrite comparable_aware.
  - cbn [bind]. rewrite comparable_aware; [reflexivity|]. intros a I. apply filter_In in I as [I _]. auto.
  - intros a I. apply sort_In in I. apply filter_In in I as [I _]. auto.
Qed.

Lemma arrange_perm l r : arrange look l = Ok r -> Permutation l r.
Proof.
  unfold arrange, sort_by_start. destruct (comparable _); cbn [bind]; [|discriminate]. destruct (comparable _); cbn [bind]; [|discriminate].
  intros H; injection H as <-. fold plt.
  rewrite <- (sort_perm (start_lt look) (sort plt _)), <- (sort_perm plt), <- (sort_perm (start_lt look)).
  clear. induction l as [|x l IH]; simpl; [constructor|]. destruct (is_active look x); simpl; [now constructor|].
  eapply perm_trans; [apply perm_skip, IH|]. apply Permutation_middle.
Qed.

Lemma arrange_sorted l r : arrange look l = Ok r -> StronglySorted (fun a b => actual_before (look a) (look b)) r.
Proof.
  unfold arrange, sort_by_start. destruct (comparable _); cbn [bind]; [|discriminate]. destruct (comparable _); cbn [bind]; [|discriminate].
  intros H; injection H as <-. fold plt. apply StronglySorted_app.
  - eapply StronglySorted_impl; [|apply (StronglySorted_lex (fun a => start_time (look a)) (fun a b => ~ higher_priority (look b) (look a)))].
    + intros a b Ia Ib H. rewrite !sort_In in Ia, Ib. apply filter_In in Ia as [_ Ia], Ib as [_ Ib]. apply active_spec in Ia, Ib.
      right. left. auto.
    + eapply StronglySorted_impl; [|apply (sort_sorted (start_lt look) start_asym start_trans)]. intros a b _ _. apply start_le.
    + intros s. rewrite sort_stable.
      * apply StronglySorted_filter. eapply StronglySorted_impl; [|apply (sort_sorted plt plt_asym plt_trans)]. intros a b _ _. apply plt_le.
      * intros a b Ha Hb. apply not_true_is_false. intros H. apply start_lt_spec in H. lia.
  - eapply StronglySorted_impl; [|apply (sort_sorted (start_lt look) start_asym start_trans)].
    intros a b Ia Ib H. rewrite !sort_In in Ia, Ib. apply filter_In in Ia as [_ Ia], Ib as [_ Ib].
    apply start_le in H. right. right. rewrite negb_true_iff in Ia, Ib.
    split; [|split; [|assumption]]; intros E; apply active_spec in E; congruence.
  - intros a b Ia Ib. rewrite !sort_In in Ia. rewrite sort_In in Ib. apply filter_In in Ia as [_ Ia], Ib as [_ Ib].
    apply active_spec in Ia. rewrite negb_true_iff in Ib. left. split; [assumption|]. intros E; apply active_spec in E; congruence.
Qed.
End OrderProofs.

Lemma refresh_aware local now now' e : ev_status e <> Cancelled \/ has_aware_start e -> has_aware_start (refresh local now now' e).
Proof.
  intros H. pose proof (refresh_refreshed local now now' e) as R.
  destruct (status_eq_dec (ev_status e) Cancelled) as [C|C].
  - rewrite (rf_cancelled _ _ _ _ _ R C). tauto.
  - destruct (rf_status _ _ _ _ _ R C (aware_start local (ev_period e)) ltac:(now apply starts_aware)) as [_ S]. now exists (aware_start local (ev_period e)).
Qed.
