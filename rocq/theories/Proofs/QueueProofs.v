From Coq Require Import ZArith String List Bool Lia Sorting.Permutation.
From Verif.Base Require Import Result Dict PyStr ListExtra.
From Verif.Model Require Import Objects EventTime EventService.
From Verif.Spec Require Import EventSpec QueueSpec.
From Verif.Proofs Require Import EventTimeProofs.
Import ListNotations.
Local Open Scope Z_scope.

Lemma upd_same h r e : upd h r e r = e.
Proof. unfold upd. now rewrite Nat.eqb_refl. Qed.
Lemma upd_other h r e r' : r' <> r -> upd h r e r' = h r'.
Proof. intros N. unfold upd. destruct (Nat.eqb_spec r' r); [contradiction|reflexivity]. Qed.

Lemma queue_set_same v q s : queue (set_queue v q s) v = q.
Proof. unfold queue, set_queue, with_queues. simpl. now rewrite (get_set_same _ scalar_eqb_eq). Qed.
Lemma queue_set_other v w q s : w <> v -> queue (set_queue v q s) w = queue s w.
Proof. intros N. unfold queue, set_queue, with_queues. simpl. now rewrite (get_set_other _ scalar_eqb_eq) by assumption. Qed.

Lemma queue_get s v q : get scalar_eqb v (queues s) = Some q -> queue s v = q.
Proof. unfold queue. now intros ->. Qed.
Lemma queue_none s v : get scalar_eqb v (queues s) = None -> queue s v = [].
Proof. unfold queue. now intros ->. Qed.

(** ** later *)
Lemma same_event_refl e : same_event e e.
Proof. repeat split. Qed.
Lemma same_event_trans a b c : same_event a b -> same_event b c -> same_event a c.
Proof. unfold same_event. intuition congruence. Qed.
Lemma later_refl e : later e e.
Proof. repeat split; auto; try lia; congruence. Qed.
Lemma later_trans a b c : later a b -> later b c -> later a c.
Proof.
  intros (S1 & M1 & C1 & L1) (S2 & M2 & C2 & L2). split; [eapply same_event_trans; eassumption|].
  split; [lia|]. split; [auto|]. intros N C. destruct (status_eq_dec (ev_status b) Cancelled) as [B|B].
  - specialize (L1 N B). lia.
  - specialize (L2 B C). lia.
Qed.

Lemma refresh_later local now now' e : later e (refresh local now now' e).
Proof.
  destruct (refresh_refreshed local now now' e). split.
  - unfold same_event. repeat split; symmetry; assumption.
  - split; [lia|]. split; [intros C; now rewrite rf_cancelled|].
    intros N C. exfalso. destruct (rf_status N (aware_start local (ev_period e)) ltac:(now apply starts_aware)) as [I _].
    rewrite C in I. inversion I.
Qed.

Definition heap_le (h h' : nat -> event) : Prop := forall r, later (h r) (h' r).
Lemma heap_le_refl h : heap_le h h.
Proof. intros r. apply later_refl. Qed.
Lemma heap_le_trans a b c : heap_le a b -> heap_le b c -> heap_le a c.
Proof. intros H K r. eapply later_trans; [apply H|apply K]. Qed.
Lemma heap_le_upd h r e : later (h r) e -> heap_le h (upd h r e).
Proof. intros L r'. destruct (Nat.eq_dec r' r) as [->|N]; [now rewrite upd_same|]. rewrite upd_other by assumption. apply later_refl. Qed.

Lemma refresh_refs_le local clock refs : forall i h, heap_le h (refresh_refs local clock i refs h).
Proof.
  induction refs as [|r refs IH]; intros i h; simpl; [apply heap_le_refl|].
  eapply heap_le_trans; [|apply IH]. apply heap_le_upd, refresh_later.
Qed.

Lemma refresh_refs_other local clock refs r : forall i h, ~ In r refs -> refresh_refs local clock i refs h r = h r.
Proof.
  induction refs as [|x refs IH]; intros i h N; simpl; [reflexivity|]. rewrite IH by (intros I; apply N; now right).
  apply upd_other. intros ->. apply N. now left.
Qed.

(** ** Frames of the handlers *)
Lemma created_frame tid v rs : forall s s' es, created_event tid v rs s = (s', es) ->
  heap s' = heap s /\ next s' = next s /\ updated s' = updated s /\ completed s' = completed s /\ deliveries s' = deliveries s /\
  (forall w, w <> v -> get scalar_eqb w (queues s') = get scalar_eqb w (queues s)) /\
  (forall t, t <> tid -> get Nat.eqb t (tasks s') = get Nat.eqb t (tasks s)) /\
  (forall t v' evs, ~ In (ESent t v' evs) es).
Proof.
  assert (DEL : forall (t : @dict nat task) k k', k' <> k -> get Nat.eqb k' (del Nat.eqb k t) = get Nat.eqb k' t).
  { intros. now apply (get_del_other _ Nat.eqb_eq). }
  induction rs as [|r rest IH]; intros s s' es H; cbn [created_event] in H.
  - apply pair_equal_spec in H as [<- <-]. simpl. repeat split; auto. intros t v' evs [E|[]]; discriminate.
  - set (fail := fun x => (with_tasks (del Nat.eqb tid (tasks s)) s, [EFail tid v x])) in H.
    assert (FAIL : forall x, fail x = (s', es) ->
      heap s' = heap s /\ next s' = next s /\ updated s' = updated s /\ completed s' = completed s /\ deliveries s' = deliveries s /\
      (forall w, w <> v -> get scalar_eqb w (queues s') = get scalar_eqb w (queues s)) /\
      (forall t, t <> tid -> get Nat.eqb t (tasks s') = get Nat.eqb t (tasks s)) /\ (forall t v' evs, ~ In (ESent t v' evs) es)).
    { intros x E. unfold fail in E. apply pair_equal_spec in E as [<- <-]. simpl. repeat split; auto. intros t v' evs [E|[]]; discriminate. }
    destruct (get scalar_eqb v (queues s)) as [q|] eqn:Q; [|eauto].
    destruct (find_response (heap s) q r) as [f|] eqn:F; [|destruct (existsb _ _); eauto]. clear FAIL fail.
    set (s1 := if status_eqb (ev_status (heap s f)) Cancelled then set_queue v (pop_id (heap s) (rs_id r) q) s else s) in H.
    assert (S1 : heap s1 = heap s /\ next s1 = next s /\ updated s1 = updated s /\ completed s1 = completed s /\ deliveries s1 = deliveries s /\
      (forall w, w <> v -> get scalar_eqb w (queues s1) = get scalar_eqb w (queues s)) /\ tasks s1 = tasks s).
    { unfold s1. destruct (status_eqb _ _); simpl; repeat split; auto. intros w N. now apply (get_set_other _ scalar_eqb_eq). }
    clearbody s1. destruct S1 as (A1 & A2 & A3 & A4 & A5 & A6 & A7).
    destruct (get scalar_eqb (rs_id r) (callbacks s1)) as [[n|n]|] eqn:C.
    + apply pair_equal_spec in H as [<- <-]. simpl. repeat split; auto.
      * intros t N. rewrite (get_set_other _ Nat.eqb_eq) by assumption. now rewrite A7.
      * intros t v' evs [E|[]]; discriminate.
    + destruct (existsb (Nat.eqb n) (done _)) eqn:D.
      * apply IH in H as (B1 & B2 & B3 & B4 & B5 & B6 & B7 & B8). simpl in *. repeat split; try congruence; auto.
        -- intros w N. rewrite B6 by assumption. auto.
        -- intros t N. rewrite B7 by assumption. now rewrite A7.
      * destruct (created_event tid v rest _) as [s2 es2] eqn:R. apply pair_equal_spec in H as [<- <-].
        apply IH in R as (B1 & B2 & B3 & B4 & B5 & B6 & B7 & B8). simpl in *. repeat split; try congruence; auto.
        -- intros w N. rewrite B6 by assumption. auto.
        -- intros t N. rewrite B7 by assumption. now rewrite A7.
        -- intros t v' evs [E|I]; [discriminate|]. eapply B8; eassumption.
    + apply IH in H as (B1 & B2 & B3 & B4 & B5 & B6 & B7 & B8). simpl in *. repeat split; try congruence; auto.
      * intros w N. rewrite B6 by assumption. auto.
      * intros t N. rewrite B7 by assumption. now rewrite A7.
Qed.

Lemma deliver_frame tid p v src i s s' es : deliver tid p v src i s = (s', es) ->
  heap s' = heap s /\ next s' = next s /\ completed s' = completed s /\ deliveries s' = deliveries s /\ queues s' = queues s /\
  callbacks s' = callbacks s /\ done s' = done s /\
  (forall t, t <> tid -> get Nat.eqb t (tasks s') = get Nat.eqb t (tasks s)) /\
  ((exists j n id, es = [EDelivery n id] /\ get Nat.eqb tid (tasks s') = Some (TDeliver p v src j) /\ (i <= j)%nat /\ updated s' = updated s) \/
   (es = [ESent tid v (map (fun r => (r, heap s' r)) (contents s v src))] /\ tasks s' = del Nat.eqb tid (tasks s) /\
    updated s' = if p then set scalar_eqb v false (updated s) else updated s)).
Proof.
  unfold deliver. destruct (next_delivery _ _ _ _) as [[[j n] id]|] eqn:N; intros H; apply pair_equal_spec in H as [<- <-]; simpl.
  - repeat split; auto.
    + intros t NE. now apply (get_set_other _ Nat.eqb_eq).
    + left. exists j, n, id. repeat split; [now rewrite (get_set_same _ Nat.eqb_eq)|].
      clear - N. revert N. generalize (skipn i (contents s v src)) as l. intros l. revert i. induction l as [|r l IH]; intros i N; simpl in N; [discriminate|].
      destruct (get _ _ _); [injection N as <- _ _; lia|]. apply IH in N. lia.
  - destruct p; simpl; repeat split; auto; try (intros t NE; now apply (get_del_other _ Nat.eqb_eq)); right; repeat split.
Qed.

(** ** Completed events *)
Definition cnt (h : nat -> event) (e : event) (l : list nat) : nat := length (filter (fun r => event_eqb (h r) e) l).

Lemma event_eqb_eq a b : event_eqb a b = true <-> a = b.
Proof. unfold event_eqb. destruct (event_eq_dec a b); split; congruence. Qed.
Lemma event_eqb_refl a : event_eqb a a = true.
Proof. now apply event_eqb_eq. Qed.

Lemma pop_equal_split h e q q' : pop_equal h e q = Some q' ->
  exists q1 r q2, q = (q1 ++ r :: q2)%list /\ q' = (q1 ++ q2)%list /\ h r = e /\ forall x, In x q1 -> h x <> e.
Proof.
  revert q'; induction q as [|r q IH]; intros q' H; simpl in H; [discriminate|].
  destruct (event_eqb (h r) e) eqn:E.
  - injection H as <-. exists [], r, q. apply event_eqb_eq in E. repeat split; auto.
  - destruct (pop_equal h e q) as [q2|]; [|discriminate]. injection H as <-.
    destruct (IH q2 eq_refl) as (a & x & b & -> & -> & Hx & N). exists (r :: a), x, b. repeat split; auto.
    intros y [<-|I]; [|auto]. intros Q. rewrite Q, event_eqb_refl in E. discriminate.
Qed.

Lemma pop_equal_some h e q : (0 < cnt h e q)%nat -> exists q', pop_equal h e q = Some q'.
Proof.
  unfold cnt. induction q as [|r q IH]; simpl; [lia|]. destruct (event_eqb (h r) e); [eauto|]. intros H.
  destruct (IH H) as (q' & ->). simpl. eauto.
Qed.

Lemma cnt_app h e a b : cnt h e (a ++ b) = (cnt h e a + cnt h e b)%nat.
Proof. unfold cnt. now rewrite filter_app, app_length. Qed.
Lemma cnt_cons h e r l : cnt h e (r :: l) = ((if event_eqb (h r) e then 1 else 0) + cnt h e l)%nat.
Proof. unfold cnt. simpl. now destruct (event_eqb (h r) e). Qed.
Lemma cnt_perm h e a b : Permutation a b -> cnt h e a = cnt h e b.
Proof.
  intros P. induction P.
  - reflexivity.
  - rewrite !cnt_cons. lia.
  - rewrite !cnt_cons. lia.
  - congruence.
Qed.
Lemma cnt_In h l r : In r l -> (0 < cnt h (h r) l)%nat.
Proof. induction l as [|x l IH]; [contradiction|]. rewrite cnt_cons. intros [->|I]; [rewrite event_eqb_refl; lia|]. specialize (IH I). lia. Qed.

Lemma drop_completed_ok h events : forall q ids, (forall e, (cnt h e events <= cnt h e q)%nat) ->
  exists q', drop_completed h events q ids = Ok (q', ids ++ map (fun r => ev_id (h r)) (filter (fun r => status_eqb (ev_status (h r)) Completed) events))%list /\
    forall e, ev_status e = Completed -> cnt h e q' = (cnt h e q - cnt h e events)%nat.
Proof.
  induction events as [|r events IH]; intros q ids C; simpl.
  - exists q. rewrite app_nil_r. split; [reflexivity|]. intros e _. unfold cnt at 3. simpl. lia.
  - destruct (status_eqb (ev_status (h r)) Completed) eqn:S.
    + destruct (pop_equal_some h (h r) q) as (q1 & P).
      { specialize (C (h r)). rewrite cnt_cons, event_eqb_refl in C. lia. }
      rewrite P. apply pop_equal_split in P as (a & x & b & -> & -> & Hx & _).
      assert (CC : forall e, cnt h e (a ++ x :: b)%list = ((if event_eqb (h r) e then 1 else 0) + cnt h e (a ++ b)%list)%nat).
      { intros e. rewrite !cnt_app, cnt_cons, Hx. lia. }
      destruct (IH (a ++ b)%list (ids ++ [ev_id (h r)])%list) as (q' & D & K).
      { intros e. specialize (C e). rewrite cnt_cons, CC in C. lia. }
      exists q'. simpl. rewrite <- app_assoc in D. split; [exact D|]. intros e E. rewrite (K e E), CC, cnt_cons. lia.
    + destruct (IH q ids) as (q' & D & K).
      { intros e. specialize (C e). rewrite cnt_cons in C. lia. }
      exists q'. split; [exact D|]. intros e E. rewrite (K e E), cnt_cons.
      destruct (event_eqb (h r) e) eqn:Q; [|lia]. apply event_eqb_eq in Q. subst e. apply status_eqb_eq in E. congruence.
Qed.

(** What remains is part of the queue, in order, and only completed events go. *)
Inductive sublist {A} : list A -> list A -> Prop :=
| sub_nil : sublist [] []
| sub_keep x l m : sublist l m -> sublist (x :: l) (x :: m)
| sub_drop x l m : sublist l m -> sublist l (x :: m).

Lemma sublist_refl {A} (l : list A) : sublist l l.
Proof. induction l; constructor; assumption. Qed.
Lemma sublist_trans {A} (a b c : list A) : sublist a b -> sublist b c -> sublist a c.
Proof.
  intros H K; revert a H; induction K; intros a H.
  - assumption.
  - inversion H; subst; [constructor; auto|apply sub_drop; auto].
  - apply sub_drop; auto.
Qed.
Lemma sublist_remove {A} (a : list A) x b : sublist (a ++ b) (a ++ x :: b).
Proof. induction a; simpl; [apply sub_drop, sublist_refl|now constructor]. Qed.
Lemma sublist_In {A} (a b : list A) x : sublist a b -> In x a -> In x b.
Proof. induction 1; simpl; intuition. Qed.
Lemma sublist_map {A B} (f : A -> B) a b : sublist a b -> sublist (map f a) (map f b).
Proof. induction 1; simpl; constructor; assumption. Qed.
Lemma sublist_NoDup {A} (a b : list A) : sublist a b -> NoDup b -> NoDup a.
Proof.
  induction 1; intros N; [constructor| |].
  - inversion N; subst. constructor; [|auto]. intros I. apply H2. eapply sublist_In; eassumption.
  - inversion N; auto.
Qed.

Lemma drop_completed_sub h events : forall q ids q' ids', drop_completed h events q ids = Ok (q', ids') ->
  sublist q' q /\ (forall r, In r q -> In r q' \/ ev_status (h r) = Completed).
Proof.
  induction events as [|r events IH]; intros q ids q' ids' H; simpl in H.
  - injection H as <- _. split; [apply sublist_refl|auto].
  - destruct (status_eqb (ev_status (h r)) Completed) eqn:S; [|eauto].
    destruct (pop_equal h (h r) q) as [q1|] eqn:P; [|discriminate].
    apply pop_equal_split in P as (a & x & b & -> & -> & Hx & _). apply IH in H as [SUB K].
    split; [eapply sublist_trans; [exact SUB|apply sublist_remove]|].
    intros y I. apply in_app_iff in I as [I|[<-|I]].
    + apply K. apply in_app_iff. auto.
    + right. rewrite Hx. now apply status_eqb_eq.
    + apply K. apply in_app_iff. auto.
Qed.

Lemma order_perm {A} (look : A -> event) q o : order_and_slice look q None None = Ok o -> Permutation q o.
Proof.
  unfold order_and_slice. destruct q as [|x [|y q]].
  - unfold arrange. simpl. intros H. injection H as <-. constructor.
  - intros H; injection H as <-. reflexivity.
  - destruct (arrange look (x :: y :: q)) as [r|] eqn:E; simpl; [|discriminate]. intros H; injection H as <-. eapply arrange_perm; eassumption.
Qed.

(** request_event up to the delivery loop *)
Definition is_single {A} (l : list A) : bool := match l with [_] => true | _ => false end.

Lemma request_cases local tid p v clock s : 
  (queue s v = [] /\ request_event local tid p v clock s = ((if p then with_updated (set scalar_eqb v false (updated s)) s else s), [EEmpty tid v])) \/
  (queue s v <> [] /\ exists h, h = refresh_refs local clock 0 (queue s v) (heap s) /\
   ((exists e, request_event local tid p v clock s = (with_heap h s, [EFail tid v e]) /\ order_and_slice h (queue s v) None None = Raise e) \/
    (exists ordered q' ids' s1, order_and_slice h (queue s v) None None = Ok ordered /\ Permutation (queue s v) ordered /\
       sublist q' (queue s v) /\ (forall r, In r q' <-> In r (queue s v) /\ ev_status (h r) <> Completed) /\
       ids' = ((match get scalar_eqb v (completed s) with Some l => l | None => [] end) ++
               map (fun r => ev_id (h r)) (filter (fun r => status_eqb (ev_status (h r)) Completed) ordered))%list /\
       heap s1 = h /\ next s1 = next s /\ updated s1 = updated s /\ callbacks s1 = callbacks s /\ deliveries s1 = deliveries s /\
       done s1 = done s /\ tasks s1 = tasks s /\ queues s1 = set scalar_eqb v q' (queues s) /\
       (forall w, w <> v -> get scalar_eqb w (completed s1) = get scalar_eqb w (completed s)) /\
       (match get scalar_eqb v (completed s1) with Some l => l | None => [] end) = ids' /\
       request_event local tid p v clock s =
         deliver tid p v (if is_single (queue s v) then Live else Snap ordered) 0 s1))).
Proof.
  unfold request_event.
  destruct (get scalar_eqb v (queues s)) as [[|r0 q0]|] eqn:Q.
  - left. rewrite (queue_get _ _ _ Q). split; [reflexivity|]. now destruct p.
  - right. rewrite (queue_get _ _ _ Q). set (q := r0 :: q0) in *. split; [discriminate|].
    set (h := refresh_refs local clock 0 q (heap s)). exists h. split; [reflexivity|].
    change (heap (with_heap h s)) with h. destruct (order_and_slice h q None None) as [o|e] eqn:O; [|left; exists e; split; reflexivity].
    pose proof (order_perm h q o O) as P.
    destruct (drop_completed_ok h o q (match get scalar_eqb v (completed s) with Some l => l | None => [] end)) as (q' & D & K).
    { intros e. now rewrite (cnt_perm h e q o P). }
    destruct (drop_completed_sub _ _ _ _ _ _ D) as [SUB KEEP].
    right. change (completed (with_heap h s)) with (completed s). rewrite D.
    set (ids := (match get scalar_eqb v (completed s) with Some l => l | None => [] end)) in *.
    set (ids' := (ids ++ _)%list).
    exists o, q', ids'.
    replace (if is_single q then Live else Snap o) with (match q0 with [] => Live | _ :: _ => Snap o end) by (unfold q; now destruct q0).
    eexists. split; [reflexivity|]. split; [assumption|]. split; [assumption|]. split.
    { intros r. split.
      - intros I. split; [eapply sublist_In; eassumption|]. intros C. apply (cnt_In h) in I. rewrite (K (h r) C) in I. rewrite (cnt_perm h _ _ _ P) in I. lia.
      - intros [I N]. destruct (KEEP r I); [assumption|contradiction]. }
    split; [reflexivity|]. split; [|split; [|split; [|split; [|split; [|split; [|split; [|split; [|split; [|split; [|reflexivity]]]]]]]]]].
    all: try (destruct ids'; reflexivity).
    + intros w N. destruct ids'; [reflexivity|]. simpl. now apply (get_set_other _ scalar_eqb_eq).
    + destruct ids' eqn:E'; simpl.
      * unfold ids', ids in E'. destruct (get scalar_eqb v (completed s)); [|reflexivity]. now apply app_eq_nil in E' as [-> _].
      * now rewrite (get_set_same _ scalar_eqb_eq).
  - left. rewrite (queue_none _ _ Q). split; [reflexivity|]. now destruct p.
Qed.

(** ** add_raw_event *)
Lemma prepare_later e e' : prepare e = Ok e' ->
  later e e' /\ ev_status e' = ev_status e /\ ev_mod e' = ev_mod e /\ ed_created (ev_descriptor e') = ed_created (ev_descriptor e).
Proof.
  unfold prepare. destruct (period_of_signals e) as [p|]; simpl; [|discriminate]. intros H. injection H as <-.
  assert (L : forall x, same_event e x -> ev_mod x = ev_mod e -> ev_status x = ev_status e -> later e x).
  { intros x S M T. split; [assumption|]. split; [lia|]. rewrite T. split; [auto|]. congruence. }
  destruct (ed_priority (ev_descriptor e)) as [[|z|z]|]; (split; [apply L; repeat split|repeat split]).
Qed.

Lemma queue_with_new s v w : queue (if mem scalar_eqb v (queues s) then s else set_queue v [] s) w = queue s w.
Proof.
  unfold mem. destruct (get scalar_eqb v (queues s)) eqn:Q; [reflexivity|].
  destruct (scalar_eq_dec w v) as [->|N]; [rewrite queue_set_same; symmetry; now apply queue_none|now apply queue_set_other].
Qed.

Lemma add_cases v src cb ok dcb s s' es : add_raw_event v src cb ok dcb s = (s', es) ->
  let r := object_of s src in let e := content_of s src in
  next s' = match src with New _ => S (next s) | Same _ => next s end /\
  completed s' = completed s /\ done s' = done s /\ tasks s' = tasks s /\
  ((exists x, es = [ERaised x] /\ (forall w, queue s' w = queue s w) /\ updated s' = updated s /\ callbacks s' = callbacks s /\
     deliveries s' = deliveries s /\ (forall i, heap s' i = match src with New e => upd (heap s) r e i | Same _ => heap s i end) /\
     (callback_ok e cb ok = false /\ x = ValueError \/ prepare e = Raise x) /\
     (forall w, w <> v -> get scalar_eqb w (queues s') = get scalar_eqb w (queues s))) \/
   (exists e', es = [] /\ prepare e = Ok e' /\ callback_ok e cb ok = true /\ (forall i, heap s' i = upd (heap s) r e' i) /\
     queue s' v = (queue s v ++ [r])%list /\ (forall w, w <> v -> get scalar_eqb w (queues s') = get scalar_eqb w (queues s)) /\
     updated s' = set scalar_eqb v true (updated s) /\
     callbacks s' = match cb with Some c => set scalar_eqb (ev_id e) c (callbacks s) | None => callbacks s end /\
     deliveries s' = match dcb with Some n => set scalar_eqb (ev_id e) n (deliveries s) | None => deliveries s end)).
Proof.
  intros H r e. unfold add_raw_event in H.
  set (s1 := match src with New e => with_next (S (next s)) (with_heap (upd (heap s) (next s) e) s) | Same _ => s end).
  assert (E1 : match src with New e => (next s, e, with_next (S (next s)) (with_heap (upd (heap s) (next s) e) s)) | Same r => (r, heap s r, s) end = (r, e, s1))
    by (unfold r, e, s1; destruct src; reflexivity).
  rewrite E1 in H. clear E1.
  assert (F1 : next s1 = match src with New _ => S (next s) | Same _ => next s end /\ queues s1 = queues s /\ updated s1 = updated s /\ completed s1 = completed s /\
     callbacks s1 = callbacks s /\ deliveries s1 = deliveries s /\ done s1 = done s /\ tasks s1 = tasks s /\
     (forall i, heap s1 i = match src with New e => upd (heap s) r e i | Same _ => heap s i end)).
  { unfold s1, r. destruct src; simpl; repeat split. }
  clearbody s1. destruct F1 as (N1 & Q1 & U1 & C1 & K1 & D1 & O1 & T1 & H1).
  destruct (callback_ok e cb ok) eqn:OK.
  2:{ apply pair_equal_spec in H as [<- <-]. repeat split; try assumption. left. exists ValueError. unfold queue. rewrite Q1. repeat split; auto. }
  set (s2 := if mem scalar_eqb v (queues s1) then s1 else set_queue v [] s1) in H.
  assert (Q2 : forall w, queue s2 w = queue s w).
  { intros w. unfold s2. rewrite queue_with_new. unfold queue. now rewrite Q1. }
  assert (Q2' : forall w, w <> v -> get scalar_eqb w (queues s2) = get scalar_eqb w (queues s)).
  { intros w N. unfold s2. rewrite <- Q1. destruct (mem scalar_eqb v (queues s1)); [reflexivity|]. simpl. now apply (get_set_other _ scalar_eqb_eq). }
  assert (F2 : next s2 = next s1 /\ updated s2 = updated s1 /\ completed s2 = completed s1 /\ callbacks s2 = callbacks s1 /\
     deliveries s2 = deliveries s1 /\ done s2 = done s1 /\ tasks s2 = tasks s1 /\ heap s2 = heap s1).
  { unfold s2. destruct (mem _ _ _); repeat split. }
  clearbody s2. destruct F2 as (N2 & U2 & C2 & K2 & D2 & O2 & T2 & H2).
  destruct (prepare e) as [e'|x] eqn:P.
  2:{ apply pair_equal_spec in H as [<- <-]. split; [congruence|]. split; [congruence|]. split; [congruence|]. split; [congruence|]. left. exists x.
      split; [reflexivity|]. split; [assumption|]. split; [congruence|]. split; [congruence|]. split; [congruence|].
      split; [intros i; rewrite H2; apply H1|]. split; [now right|assumption]. }
  set (s3 := with_updated _ _) in H.
  assert (F3 : next s3 = next s2 /\ completed s3 = completed s2 /\ callbacks s3 = callbacks s2 /\ deliveries s3 = deliveries s2 /\ done s3 = done s2 /\ tasks s3 = tasks s2 /\
     heap s3 = upd (heap s2) r e' /\ queues s3 = set scalar_eqb v (queue s2 v ++ [r])%list (queues s2) /\ updated s3 = set scalar_eqb v true (updated s2)).
  { unfold s3. repeat split. }
  clearbody s3. destruct F3 as (N3 & C3 & K3 & D3 & O3 & T3 & H3 & Q3 & U3).
  set (s4 := match cb with Some c => _ | None => _ end) in H.
  assert (F4 : next s4 = next s3 /\ completed s4 = completed s3 /\ deliveries s4 = deliveries s3 /\ done s4 = done s3 /\ tasks s4 = tasks s3 /\
     heap s4 = heap s3 /\ queues s4 = queues s3 /\ updated s4 = updated s3 /\
     callbacks s4 = match cb with Some c => set scalar_eqb (ev_id e) c (callbacks s3) | None => callbacks s3 end).
  { unfold s4. destruct cb; repeat split. }
  clearbody s4. destruct F4 as (N4 & C4 & D4 & O4 & T4 & H4 & Q4 & U4 & K4).
  set (s5 := match dcb with Some n => _ | None => _ end) in H.
  assert (F5 : next s5 = next s4 /\ completed s5 = completed s4 /\ callbacks s5 = callbacks s4 /\ done s5 = done s4 /\ tasks s5 = tasks s4 /\
     heap s5 = heap s4 /\ queues s5 = queues s4 /\ updated s5 = updated s4 /\
     deliveries s5 = match dcb with Some c => set scalar_eqb (ev_id e) c (deliveries s4) | None => deliveries s4 end).
  { unfold s5. destruct dcb; repeat split. }
  clearbody s5. destruct F5 as (N5 & C5 & K5 & O5 & T5 & H5 & Q5 & U5 & D5).
  apply pair_equal_spec in H as [<- <-].
  split; [congruence|]. split; [congruence|]. split; [congruence|]. split; [congruence|]. right. exists e'.
  split; [reflexivity|]. split; [reflexivity|]. split; [reflexivity|].
  split. { intros i. rewrite H5, H4, H3, H2. unfold upd. destruct (Nat.eqb_spec i r) as [->|NE]; [reflexivity|]. rewrite H1. unfold r in NE. destruct src; [|reflexivity]. now rewrite upd_other. }
  split. { unfold queue at 1. rewrite Q5, Q4, Q3, (get_set_same _ scalar_eqb_eq). now rewrite Q2. }
  split. { intros w N. rewrite Q5, Q4, Q3, (get_set_other _ scalar_eqb_eq) by assumption. auto. }
  split; [congruence|]. split.
  - rewrite K5, K4, K3, K2, K1. reflexivity.
  - rewrite D5, D4, D3, D2, D1. reflexivity.
Qed.

Lemma cancel_cases v id s :
  (find_id (heap s) (queue s v) id = None /\ cancel_event v id s = s) \/
  (exists r, find_id (heap s) (queue s v) id = Some r /\
    cancel_event v id s = with_updated (set scalar_eqb v true (updated s))
      (with_heap (upd (heap s) r (increment_event_modification_number (set_status Cancelled (heap s r)))) s)).
Proof.
  unfold cancel_event, queue. destruct (get scalar_eqb v (queues s)) as [q|]; [|left; split; reflexivity].
  destruct (find_id (heap s) q id) as [r|] eqn:F; [right|left; split; reflexivity].
  exists r. split; reflexivity.
Qed.

Lemma cancel_later e : later e (increment_event_modification_number (set_status Cancelled e)).
Proof.
  unfold increment_event_modification_number. split; [repeat split|]. unfold ev_mod, ev_status; simpl. split; [lia|]. split; [reflexivity|]. intros; lia.
Qed.

Lemma find_id_some h q id r : find_id h q id = Some r -> In r q /\ ev_id (h r) = id /\
  exists q1 q2, q = (q1 ++ r :: q2)%list /\ forall x, In x q1 -> ev_id (h x) <> id.
Proof.
  unfold find_id. induction q as [|x q IH]; simpl; [discriminate|]. destruct (scalar_eqb (ev_id (h x)) id) eqn:E.
  - intros H; injection H as <-. apply scalar_eqb_eq in E. split; [now left|]. split; [assumption|]. exists [], q. split; [reflexivity|]. intros y [].
  - intros H. destruct (IH H) as (I & J & q1 & q2 & -> & N). split; [now right|]. split; [assumption|]. exists (x :: q1), q2. split; [reflexivity|].
    intros y [<-|K]; [|auto]. now apply scalar_eqb_neq.
Qed.

Lemma find_id_none h q id : find_id h q id = None <-> forall r, In r q -> ev_id (h r) <> id.
Proof.
  unfold find_id. split.
  - intros H r I. apply find_none with (x := r) in H; [|assumption]. now apply scalar_eqb_neq.
  - intros H. destruct (find _ q) as [r|] eqn:F; [|reflexivity]. apply find_some in F as [I E]. apply scalar_eqb_eq in E. exfalso. now apply (H r).
Qed.

(** ** One step *)
Definition task_ven (t : task) : scalar := match t with TDeliver _ v _ _ => v | TCreated v _ => v end.

Lemma step_next local s l s' es : step local s l = Some (s', es) -> (next s <= next s')%nat.
Proof.
  destruct l as [v src cb ok dcb|v id|tid v clock|tid v clock|tid v rs|tid out|f]; cbn [step]; intros H.
  - assert (A : add_raw_event v src cb ok dcb s = (s', es)) by (destruct src; [|destruct (Nat.ltb _ _); [|discriminate]]; congruence).
    apply add_cases in A as (N & _). rewrite N. destruct src; lia.
  - injection H as <- <-. destruct (cancel_cases v id s) as [[_ ->]|(r & _ & ->)]; reflexivity.
  - destruct (mem _ _ _); [discriminate|]. injection H as H. unfold poll in H. destruct (get scalar_eqb v (updated s)) as [[]|]; [|apply pair_equal_spec in H as [<- _]; reflexivity..].
    destruct (request_cases local tid true v clock s) as [[_ R]|(_ & h & _ & [(e & R & _)|(o & q' & i' & s1 & _ & _ & _ & _ & _ & A & B & _ & _ & _ & _ & _ & _ & _ & _ & R)])]; rewrite R in H.
    + apply pair_equal_spec in H as [<- _]. reflexivity.
    + apply pair_equal_spec in H as [<- _]. reflexivity.
    + apply deliver_frame in H as (_ & N & _). lia.
  - destruct (mem _ _ _); [discriminate|]. injection H as H.
    destruct (request_cases local tid false v clock s) as [[_ R]|(_ & h & _ & [(e & R & _)|(o & q' & i' & s1 & _ & _ & _ & _ & _ & A & B & _ & _ & _ & _ & _ & _ & _ & _ & R)])]; rewrite R in H.
    + apply pair_equal_spec in H as [<- _]. reflexivity.
    + apply pair_equal_spec in H as [<- _]. reflexivity.
    + apply deliver_frame in H as (_ & N & _). lia.
  - destruct (mem _ _ _); [discriminate|]. injection H as H. apply created_frame in H as (_ & N & _). lia.
  - destruct (get Nat.eqb tid (tasks s)) as [t|]; [|discriminate]. destruct out as [[]|e].
    + destruct t; injection H as H; [apply deliver_frame in H as (_ & N & _); lia|apply created_frame in H as (_ & N & _); lia].
    + injection H as <- _. reflexivity.
  - injection H as <- _. reflexivity.
Qed.

(** The heap before and after a request was started. *)
Lemma request_heap local tid p v clock s s' es : request_event local tid p v clock s = (s', es) ->
  heap s' = refresh_refs local clock 0 (queue s v) (heap s) /\ next s' = next s.
Proof.
  destruct (request_cases local tid p v clock s) as [[Q R]|(_ & h & Hh & [(e & R & _)|(o & q' & i' & s1 & _ & _ & _ & _ & _ & A & B & _ & _ & _ & _ & _ & _ & _ & _ & R)])]; rewrite R; intros H.
  - apply pair_equal_spec in H as [<- _]. rewrite Q. destruct p; split; reflexivity.
  - apply pair_equal_spec in H as [<- _]. split; [exact Hh|reflexivity].
  - apply deliver_frame in H as (E & N & _). split; [congruence|congruence].
Qed.

Lemma step_heap local s l s' es : step local s l = Some (s', es) -> forall r, (r < next s)%nat -> later (heap s r) (heap s' r).
Proof.
  intros H r Lr. destruct l as [v src cb ok dcb|v id|tid v clock|tid v clock|tid v rs|tid out|f]; cbn [step] in H.
  - assert (A : add_raw_event v src cb ok dcb s = (s', es)) by (destruct src; [|destruct (Nat.ltb _ _); [|discriminate]]; congruence).
    apply add_cases in A as (_ & _ & _ & _ & [(x & _ & _ & _ & _ & _ & Hh & _)|(e' & _ & P & _ & Hh & _)]); rewrite Hh.
    + destruct src; [|apply later_refl]. simpl. rewrite upd_other by (simpl; lia). apply later_refl.
    + destruct src as [e|r']; simpl in *.
      * rewrite upd_other by lia. apply later_refl.
      * unfold upd. destruct (Nat.eqb_spec r r') as [->|]; [|apply later_refl]. now apply prepare_later.
  - injection H as <- <-. destruct (cancel_cases v id s) as [[_ ->]|(r' & _ & ->)]; [apply later_refl|]. apply heap_le_upd, cancel_later.
  - destruct (mem _ _ _); [discriminate|]. injection H as H. unfold poll in H. destruct (get scalar_eqb v (updated s)) as [[]|].
    + apply request_heap in H as [-> _]. apply refresh_refs_le.
    + apply pair_equal_spec in H as [<- _]. apply later_refl.
    + apply pair_equal_spec in H as [<- _]. apply later_refl.
  - destruct (mem _ _ _); [discriminate|]. injection H as H. apply request_heap in H as [-> _]. apply refresh_refs_le.
  - destruct (mem _ _ _); [discriminate|]. injection H as H. apply created_frame in H as (-> & _). apply later_refl.
  - destruct (get Nat.eqb tid (tasks s)) as [t|]; [|discriminate]. destruct out as [[]|e].
    + destruct t; injection H as H; [apply deliver_frame in H as (-> & _)|apply created_frame in H as (-> & _)]; apply later_refl.
    + injection H as <- _. apply later_refl.
  - injection H as <- _. apply later_refl.
Qed.

Lemma map_fst_pair {A B} (f : A -> B) l : map fst (map (fun r => (r, f r)) l) = l.
Proof. rewrite map_map. apply map_id. Qed.

(** A step that sends a distribution has no other effect to show, and sends
    the contents at that moment. *)
Lemma request_sent local tid p v clock s s' es t v' evs : request_event local tid p v clock s = (s', es) -> In (ESent t v' evs) es ->
  t = tid /\ v' = v /\ es = [ESent tid v evs] /\
  evs = map (fun r => (r, heap s' r)) (if is_single (queue s v) then queue s' v else map fst evs) /\
  (is_single (queue s v) = false -> Permutation (queue s v) (map fst evs)) /\
  (forall r, In r (map fst evs) -> In r (queue s v)).
Proof.
  destruct (request_cases local tid p v clock s) as [[Q R]|(_ & h & Hh & [(e & R & _)|(o & q' & i' & s1 & O & P & SUB & _ & _ & A & B & _ & _ & _ & _ & _ & QS & _ & _ & R)])]; rewrite R; intros H I.
  - apply pair_equal_spec in H as [_ <-]. destruct I as [I|[]]; discriminate.
  - apply pair_equal_spec in H as [_ <-]. destruct I as [I|[]]; discriminate.
  - apply deliver_frame in H as (E & N & _ & _ & QQ & _ & _ & _ & [(j & n & id & -> & _)|(-> & _)]); [destruct I as [I|[]]; discriminate|].
    destruct I as [I|[]]. injection I as <- <- <-. split; [reflexivity|]. split; [reflexivity|]. split; [reflexivity|].
    assert (Q' : queue s' v = q') by (apply queue_get; rewrite QQ, QS; now rewrite (get_set_same _ scalar_eqb_eq)).
    assert (Q1 : queue s1 v = q') by (apply queue_get; rewrite QS; now rewrite (get_set_same _ scalar_eqb_eq)).
    rewrite !map_fst_pair. destruct (is_single (queue s v)) eqn:S; simpl.
    + rewrite Q1, Q'. split; [reflexivity|]. split; [discriminate|]. intros r I. eapply sublist_In; eassumption.
    + split; [reflexivity|]. split; [auto|]. intros r I. eapply Permutation_in; [symmetry; exact P|exact I].
Qed.

Lemma step_sent local s l s' es t v evs : step local s l = Some (s', es) -> In (ESent t v evs) es ->
  es = [ESent t v evs] /\ evs = map (fun r => (r, heap s' r)) (map fst evs) /\
  ((exists clock, (l = LPoll t v clock \/ l = LRequest t v clock) /\ mem Nat.eqb t (tasks s) = false /\
     (forall r, In r (map fst evs) -> In r (queue s v)) /\
     (map fst evs = queue s' v \/ Permutation (queue s v) (map fst evs))) \/
   (exists p src i, l = LResume t (Ok tt) /\ get Nat.eqb t (tasks s) = Some (TDeliver p v src i) /\ map fst evs = contents s v src /\ queues s' = queues s)).
Proof.
  intros H I. destruct l as [w src cb ok dcb|w id|tid w clock|tid w clock|tid w rs|tid out|f]; cbn [step] in H.
  - assert (A : add_raw_event w src cb ok dcb s = (s', es)) by (destruct src; [|destruct (Nat.ltb _ _); [|discriminate]]; congruence).
    apply add_cases in A as (_ & _ & _ & _ & [(x & -> & _)|(e' & -> & _)]); [destruct I as [I|[]]; discriminate|contradiction].
  - injection H as <- <-. contradiction.
  - destruct (mem _ _ _) eqn:M; [discriminate|]. injection H as H. unfold poll in H. destruct (get scalar_eqb w (updated s)) as [[]|].
    + pose proof (request_sent _ _ _ _ _ _ _ _ _ _ _ H I) as (-> & -> & E & EV & PP & SUB). split; [assumption|].
      assert (EV' : evs = map (fun r => (r, heap s' r)) (map fst evs)).
      { destruct (is_single (queue s w)); [|assumption]. rewrite EV at 2. now rewrite map_fst_pair. }
      split; [assumption|]. left. exists clock. split; [now left|]. split; [assumption|]. split; [assumption|].
      destruct (is_single (queue s w)); [left|right; auto]. rewrite EV. apply map_fst_pair.
    + apply pair_equal_spec in H as [_ <-]. destruct I as [I|[]]; discriminate.
    + apply pair_equal_spec in H as [_ <-]. destruct I as [I|[]]; discriminate.
  - destruct (mem _ _ _) eqn:M; [discriminate|]. injection H as H.
    pose proof (request_sent _ _ _ _ _ _ _ _ _ _ _ H I) as (-> & -> & E & EV & PP & SUB). split; [assumption|].
    assert (EV' : evs = map (fun r => (r, heap s' r)) (map fst evs)).
    { destruct (is_single (queue s w)); [|assumption]. rewrite EV at 2. now rewrite map_fst_pair. }
    split; [assumption|]. left. exists clock. split; [now right|]. split; [assumption|]. split; [assumption|].
    destruct (is_single (queue s w)); [left|right; auto]. rewrite EV. apply map_fst_pair.
  - destruct (mem _ _ _); [discriminate|]. injection H as H. apply created_frame in H as (_ & _ & _ & _ & _ & _ & _ & F). exfalso. eapply F; eassumption.
  - destruct (get Nat.eqb tid (tasks s)) as [tk|] eqn:G; [|discriminate]. destruct out as [[]|e].
    + destruct tk as [p w src i|w rest]; injection H as H.
      * apply deliver_frame in H as (E & N & _ & _ & QQ & _ & _ & _ & [(j & n & id & -> & _)|(-> & _)]); [destruct I as [I|[]]; discriminate|].
        destruct I as [I|[]]. injection I as <- <- <-. split; [reflexivity|]. rewrite !map_fst_pair. split; [reflexivity|].
        right. exists p, src, i. repeat split; auto.
      * apply created_frame in H as (_ & _ & _ & _ & _ & _ & _ & F). exfalso. eapply F; eassumption.
    + injection H as _ <-. destruct I as [I|[]]; discriminate.
  - injection H as _ <-. contradiction.
Qed.
