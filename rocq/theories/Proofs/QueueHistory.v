From Coq Require Import ZArith String List Bool Lia Sorting.Permutation.
From Verif.Base Require Import Result Dict PyStr ListExtra.
From Verif.Model Require Import Objects EventTime EventService.
From Verif.Spec Require Import EventSpec QueueSpec.
From Verif.Proofs Require Import EventTimeProofs QueueProofs.
Import ListNotations.
Local Open Scope Z_scope.

(** ** created_event and the queue *)
Lemma pop_id_sub h id q : sublist (pop_id h id q) q.
Proof. induction q as [|r q IH]; simpl; [constructor|]. destruct (scalar_eqb _ _); [apply sub_drop, sublist_refl|now constructor]. Qed.
Lemma pop_id_split h id q1 r q2 : ev_id (h r) = id -> (forall x, In x q1 -> ev_id (h x) <> id) ->
  pop_id h id (q1 ++ r :: q2) = (q1 ++ q2)%list.
Proof.
  intros E. induction q1 as [|x q1 IH]; intros N; simpl.
  - rewrite E. now rewrite (proj2 (scalar_eqb_eq id id) eq_refl).
  - assert (NE : scalar_eqb (ev_id (h x)) id = false) by (apply scalar_eqb_neq, N; now left). rewrite NE. f_equal. apply IH. intros y I. apply N. now right.
Qed.
Lemma pop_id_removed h id q r : In r q -> ~ In r (pop_id h id q) -> ev_id (h r) = id.
Proof.
  induction q as [|x q IH]; simpl; [contradiction|]. destruct (scalar_eqb (ev_id (h x)) id) eqn:E.
  - intros [->|I] N; [now apply scalar_eqb_eq|contradiction].
  - intros [->|I] N; [exfalso; apply N; now left|]. apply IH; [assumption|]. intros J. apply N. now right.
Qed.

Lemma find_response_some h q rs r : find_response h q rs = Some r -> In r q /\ ev_id (h r) = rs_id rs /\ SInt (ev_mod (h r)) = rs_mod rs.
Proof.
  unfold find_response. intros H. apply find_some in H as [I E]. apply andb_prop in E as [E1 E2].
  apply scalar_eqb_eq in E1, E2. auto.
Qed.
Lemma find_response_none h q rs : find_response h q rs = None <-> forall r, In r q -> ev_id (h r) = rs_id rs -> SInt (ev_mod (h r)) <> rs_mod rs.
Proof.
  unfold find_response. split.
  - intros H r I E M. apply find_none with (x := r) in H; [|assumption].
    rewrite (proj2 (scalar_eqb_eq _ _) E), (proj2 (scalar_eqb_eq _ _) M) in H. discriminate.
  - intros H. destruct (find _ q) as [r|] eqn:F; [|reflexivity]. apply find_some in F as [I E]. apply andb_prop in E as [E1 E2].
    apply scalar_eqb_eq in E1, E2. exfalso. now apply (H r).
Qed.

(** The body of the loop for one response. *)
Definition after_response (s : state) (v : scalar) (rs : response) (q : list nat) (r : nat) : state :=
  if status_eqb (ev_status (heap s r)) Cancelled then set_queue v (pop_id (heap s) (rs_id rs) q) s else s.

Lemma after_frame s v rs q r : let s1 := after_response s v rs q r in
  heap s1 = heap s /\ next s1 = next s /\ updated s1 = updated s /\ completed s1 = completed s /\ callbacks s1 = callbacks s /\
  deliveries s1 = deliveries s /\ done s1 = done s /\ tasks s1 = tasks s.
Proof. unfold after_response. destruct (status_eqb _ _); simpl; repeat split. Qed.

Lemma created_queue tid v rs : forall s s' es, created_event tid v rs s = (s', es) ->
  sublist (queue s' v) (queue s v) /\
  (forall x, In x (queue s v) -> ~ In x (queue s' v) ->
     exists resp f, In resp rs /\ ev_id (heap s x) = rs_id resp /\ In f (queue s v) /\ ev_id (heap s f) = rs_id resp /\
       SInt (ev_mod (heap s f)) = rs_mod resp /\ ev_status (heap s f) = Cancelled).
Proof.
  induction rs as [|r rest IH]; intros s s' es H; cbn [created_event] in H.
  - apply pair_equal_spec in H as [<- <-]. split; [apply sublist_refl|]. intros x I N. contradiction.
  - assert (FAIL : forall x, (with_tasks (del Nat.eqb tid (tasks s)) s, [EFail tid v x]) = (s', es) ->
      sublist (queue s' v) (queue s v) /\ (forall x, In x (queue s v) -> ~ In x (queue s' v) ->
     exists resp f, In resp (r :: rest) /\ ev_id (heap s x) = rs_id resp /\ In f (queue s v) /\ ev_id (heap s f) = rs_id resp /\
       SInt (ev_mod (heap s f)) = rs_mod resp /\ ev_status (heap s f) = Cancelled)).
    { intros x E. apply pair_equal_spec in E as [<- _]. split; [apply sublist_refl|]. intros y I N. contradiction. }
    destruct (get scalar_eqb v (queues s)) as [q|] eqn:Q; [|eauto].
    destruct (find_response (heap s) q r) as [f|] eqn:F; [|destruct (existsb _ _); eauto]. clear FAIL.
    pose proof (queue_get _ _ _ Q) as QV.
    apply find_response_some in F as (IF & F1 & F2).
    change (if status_eqb (ev_status (heap s f)) Cancelled then set_queue v (pop_id (heap s) (rs_id r) q) s else s) with (after_response s v r q f) in H.
    pose proof (after_frame s v r q f) as AF. cbv zeta in AF.
    assert (AQ : sublist (queue (after_response s v r q f) v) (queue s v) /\
       (forall x, In x (queue s v) -> ~ In x (queue (after_response s v r q f) v) -> ev_id (heap s x) = rs_id r /\ ev_status (heap s f) = Cancelled)).
    { unfold after_response. destruct (status_eqb (ev_status (heap s f)) Cancelled) eqn:C.
      - rewrite queue_set_same, QV. split; [apply pop_id_sub|]. intros x I N. split; [eapply pop_id_removed; eassumption|now apply status_eqb_eq].
      - split; [apply sublist_refl|]. intros x I N. contradiction. }
    set (s1 := after_response s v r q f) in *. clearbody s1. destruct AF as (A1 & A2 & A3 & A4 & A5 & A6 & A7 & A8). destruct AQ as [AQ1 AQ2].
    assert (LAST : sublist (queue s1 v) (queue s v) /\ (forall x, In x (queue s v) -> ~ In x (queue s1 v) ->
       exists resp f, In resp (r :: rest) /\ ev_id (heap s x) = rs_id resp /\ In f (queue s v) /\ ev_id (heap s f) = rs_id resp /\
       SInt (ev_mod (heap s f)) = rs_mod resp /\ ev_status (heap s f) = Cancelled)).
    { split; [assumption|]. intros x I N. destruct (AQ2 x I N) as [E C]. exists r, f. split; [now left|]. rewrite <- QV in IF. auto. }
    assert (REC : forall s2 s3 es3, queue s2 v = queue s1 v -> heap s2 = heap s1 -> created_event tid v rest s2 = (s3, es3) ->
      sublist (queue s3 v) (queue s v) /\ (forall x, In x (queue s v) -> ~ In x (queue s3 v) ->
       exists resp f, In resp (r :: rest) /\ ev_id (heap s x) = rs_id resp /\ In f (queue s v) /\ ev_id (heap s f) = rs_id resp /\
       SInt (ev_mod (heap s f)) = rs_mod resp /\ ev_status (heap s f) = Cancelled)).
    { intros s2 s3 es3 E2 H2 R. apply IH in R as [R1 R2]. rewrite E2 in *. rewrite H2, A1 in *.
      split; [eapply sublist_trans; eassumption|]. intros x I N.
      destruct (in_dec Nat.eq_dec x (queue s1 v)) as [J|J].
      - destruct (R2 x J N) as (resp & g & G1 & G2 & G3 & G4 & G5 & G6). exists resp, g. split; [now right|].
        split; [assumption|]. split; [eapply sublist_In; eassumption|]. auto.
      - now apply LAST. }
    destruct (get scalar_eqb (rs_id r) (callbacks s1)) as [[n|n]|] eqn:C.
    + apply pair_equal_spec in H as [<- <-]. exact LAST.
    + destruct (existsb (Nat.eqb n) _) eqn:D.
      * eapply REC; [| |exact H]; reflexivity.
      * destruct (created_event tid v rest _) as [s2 es2] eqn:R. apply pair_equal_spec in H as [<- <-].
        eapply REC; [| |exact R]; reflexivity.
    + eapply REC; [| |exact H]; reflexivity.
Qed.

(** ** How one step changes a queue *)
Definition requested_by (l : label) (w : scalar) : Prop :=
  exists tid clock, l = LPoll tid w clock \/ l = LRequest tid w clock.

Lemma queue_ext s s' w : get scalar_eqb w (queues s') = get scalar_eqb w (queues s) -> queue s' w = queue s w.
Proof. unfold queue. now intros ->. Qed.

Lemma request_queue local tid p v clock s s' es : request_event local tid p v clock s = (s', es) ->
  (forall w, w <> v -> queue s' w = queue s w) /\ sublist (queue s' v) (queue s v) /\
  (forall r, In r (queue s v) -> In r (queue s' v) \/ ev_status (heap s' r) = Completed) /\
  ((forall t e, ~ In (EFail t v e) es) -> forall r, In r (queue s' v) <-> In r (queue s v) /\ ev_status (heap s' r) <> Completed).
Proof.
  intros R0. destruct (request_cases local tid p v clock s) as [[Q R]|(NQ & h & Hh & [(e & R & _)|(o & q' & i' & s1 & _ & _ & SUB & IFF & _ & A & B & _ & _ & _ & _ & _ & QS & _ & _ & R)])]; rewrite R in R0.
  - apply pair_equal_spec in R0 as [<- _]. destruct p; (split; [reflexivity|]; split; [apply sublist_refl|]; split; [now left|]; intros _ r; cbn; unfold queue in *; cbn; rewrite Q; simpl; tauto).
  - apply pair_equal_spec in R0 as [<- <-]. split; [reflexivity|]. split; [apply sublist_refl|]. split; [now left|]. intros N. exfalso. eapply N. now left.
  - apply deliver_frame in R0 as (E & N & _ & _ & QQ & _).
    assert (Q' : queue s' v = q') by (apply queue_get; rewrite QQ, QS; now rewrite (get_set_same _ scalar_eqb_eq)).
    split; [intros w NW; apply queue_ext; rewrite QQ, QS; now apply (get_set_other _ scalar_eqb_eq)|].
    rewrite Q', E, A. split; [assumption|]. split; [|intros _; exact IFF].
    intros r I. destruct (status_eq_dec (ev_status (h r)) Completed); [now right|]. left. now apply IFF.
Qed.

Lemma step_queue local s l s' es : step local s l = Some (s', es) -> forall w,
  queue s' w = queue s w \/
  (exists src cb ok dcb, l = LAdd w src cb ok dcb /\ es = [] /\ queue s' w = (queue s w ++ [object_of s src])%list) \/
  (requested_by l w /\ sublist (queue s' w) (queue s w) /\
     forall r, In r (queue s w) -> In r (queue s' w) \/ ev_status (heap s' r) = Completed) \/
  (exists rs, answers s l w rs /\ sublist (queue s' w) (queue s w) /\ heap s' = heap s /\
     forall x, In x (queue s w) -> ~ In x (queue s' w) ->
     exists resp f, In resp rs /\ ev_id (heap s x) = rs_id resp /\ In f (queue s w) /\ ev_id (heap s f) = rs_id resp /\
       SInt (ev_mod (heap s f)) = rs_mod resp /\ ev_status (heap s f) = Cancelled).
Proof.
  intros H w. destruct l as [v src cb ok dcb|v id|tid v clock|tid v clock|tid v rs|tid out|f]; cbn [step] in H.
  - assert (A : add_raw_event v src cb ok dcb s = (s', es)) by (destruct src; [|destruct (Nat.ltb _ _); [|discriminate]]; congruence).
    apply add_cases in A as (_ & _ & _ & _ & [(x & _ & Q & _)|(e' & E & _ & _ & _ & Q & Q' & _)]); [left; apply Q|].
    destruct (scalar_eq_dec w v) as [->|N]; [|left; apply queue_ext; auto].
    right; left. exists src, cb, ok, dcb. auto.
  - injection H as <- <-. destruct (cancel_cases v id s) as [[_ ->]|(r & _ & ->)]; now left.
  - destruct (mem _ _ _); [discriminate|]. injection H as H. unfold poll in H. destruct (get scalar_eqb v (updated s)) as [[]|]; [|apply pair_equal_spec in H as [<- _]; now left..].
    apply request_queue in H as (Q1 & Q2 & Q3 & _). destruct (scalar_eq_dec w v) as [->|N]; [|left; auto].
    right; right; left. split; [exists tid, clock; now left|]. auto.
  - destruct (mem _ _ _); [discriminate|]. injection H as H.
    apply request_queue in H as (Q1 & Q2 & Q3 & _). destruct (scalar_eq_dec w v) as [->|N]; [|left; auto].
    right; right; left. split; [exists tid, clock; now right|]. auto.
  - destruct (mem _ _ _); [discriminate|]. injection H as H. destruct (scalar_eq_dec w v) as [->|N].
    + right; right; right. exists rs. split; [exists tid; now left|]. pose proof (created_frame _ _ _ _ _ _ H) as (HH & _).
      apply created_queue in H as [C1 C2]. auto.
    + left. apply queue_ext. apply created_frame in H as (_ & _ & _ & _ & _ & F & _). auto.
  - destruct (get Nat.eqb tid (tasks s)) as [t|] eqn:G; [|discriminate]. destruct out as [[]|e].
    + destruct t as [p v src i|v rest]; injection H as H.
      * left. apply deliver_frame in H as (_ & _ & _ & _ & Q & _). apply queue_ext. now rewrite Q.
      * destruct (scalar_eq_dec w v) as [->|N].
        -- right; right; right. exists rest. split; [exists tid; now right|]. pose proof (created_frame _ _ _ _ _ _ H) as (HH & _).
           apply created_queue in H as [C1 C2]. auto.
        -- left. apply queue_ext. apply created_frame in H as (_ & _ & _ & _ & _ & F & _). auto.
    + injection H as <- _. now left.
  - injection H as <- _. now left.
Qed.

(** ** Tasks *)
Lemma created_tasks tid v rs : forall s s' es, created_event tid v rs s = (s', es) -> NoDup (keys (tasks s)) ->
  NoDup (keys (tasks s')) /\ (get Nat.eqb tid (tasks s') = None \/ exists rest, get Nat.eqb tid (tasks s') = Some (TCreated v rest)).
Proof.
  induction rs as [|r rest IH]; intros s s' es H ND; cbn [created_event] in H.
  - apply pair_equal_spec in H as [<- <-]. simpl. split; [now apply nodup_del|]. left. now apply (get_del_same _ Nat.eqb_eq).
  - assert (FAIL : forall x, (with_tasks (del Nat.eqb tid (tasks s)) s, [EFail tid v x]) = (s', es) ->
      NoDup (keys (tasks s')) /\ (get Nat.eqb tid (tasks s') = None \/ exists rest, get Nat.eqb tid (tasks s') = Some (TCreated v rest))).
    { intros x E. apply pair_equal_spec in E as [<- _]. simpl. split; [now apply nodup_del|]. left. now apply (get_del_same _ Nat.eqb_eq). }
    destruct (get scalar_eqb v (queues s)) as [q|] eqn:Q; [|eauto].
    destruct (find_response (heap s) q r) as [f|] eqn:F; [|destruct (existsb _ _); eauto]. clear FAIL.
    change (if status_eqb (ev_status (heap s f)) Cancelled then set_queue v (pop_id (heap s) (rs_id r) q) s else s) with (after_response s v r q f) in H.
    pose proof (after_frame s v r q f) as AF. cbv zeta in AF. destruct AF as (_ & _ & _ & _ & _ & _ & _ & A8).
    set (s1 := after_response s v r q f) in *. clearbody s1.
    destruct (get scalar_eqb (rs_id r) (callbacks s1)) as [[n|n]|] eqn:C.
    + apply pair_equal_spec in H as [<- <-]. simpl. rewrite A8. split; [now apply (nodup_set _ Nat.eqb_eq)|]. right. exists rest. now apply (get_set_same _ Nat.eqb_eq).
    + destruct (existsb (Nat.eqb n) _) eqn:D.
      * eapply IH; [exact H|]. simpl. now rewrite A8.
      * destruct (created_event tid v rest _) as [s2 es2] eqn:R. apply pair_equal_spec in H as [<- <-].
        eapply IH; [exact R|]. simpl. now rewrite A8.
    + eapply IH; [exact H|]. now rewrite A8.
Qed.

Lemma deliver_tasks tid p v src i s s' es : deliver tid p v src i s = (s', es) -> NoDup (keys (tasks s)) -> NoDup (keys (tasks s')).
Proof.
  unfold deliver. destruct (next_delivery _ _ _ _) as [[[j n] id]|]; intros H; apply pair_equal_spec in H as [<- <-]; simpl; intros ND.
  - now apply (nodup_set _ Nat.eqb_eq).
  - destruct p; simpl; now apply nodup_del.
Qed.

Lemma request_tasks local tid p v clock s s' es : request_event local tid p v clock s = (s', es) -> NoDup (keys (tasks s)) -> get Nat.eqb tid (tasks s) = None ->
  NoDup (keys (tasks s')) /\ (forall t, t <> tid -> get Nat.eqb t (tasks s') = get Nat.eqb t (tasks s)) /\
  (get Nat.eqb tid (tasks s') = None \/
   exists src j, get Nat.eqb tid (tasks s') = Some (TDeliver p v src j) /\ (src = Live \/ exists o, src = Snap o /\ Permutation (queue s v) o)).
Proof.
  intros R0 ND G. destruct (request_cases local tid p v clock s) as [[Q R]|(NQ & h & Hh & [(e & R & _)|(o & q' & i' & s1 & _ & P & SUB & IFF & _ & A & B & _ & _ & _ & _ & TS & QS & _ & _ & R)])]; rewrite R in R0.
  - apply pair_equal_spec in R0 as [<- _]. destruct p; (split; [assumption|]; split; [reflexivity|]; now left).
  - apply pair_equal_spec in R0 as [<- _]. split; [assumption|]; split; [reflexivity|]; now left.
  - pose proof (deliver_tasks _ _ _ _ _ _ _ _ R0) as ND'. rewrite TS in ND'. specialize (ND' ND). split; [assumption|].
    apply deliver_frame in R0 as (E & N & _ & _ & QQ & _ & _ & TT & D). rewrite TS in *. split; [assumption|].
    destruct D as [(j & n & id & _ & T & _)|(_ & T & _)].
    + right. exists (if is_single (queue s v) then Live else Snap o), j. split; [assumption|]. destruct (is_single _); [now left|right]. exists o. auto.
    + left. rewrite T. now apply (get_del_same _ Nat.eqb_eq).
Qed.

Lemma mem_false_get {V} (d : @dict nat V) t : mem Nat.eqb t d = false -> get Nat.eqb t d = None.
Proof. unfold mem. destruct (get Nat.eqb t d); [discriminate|reflexivity]. Qed.

Lemma step_tasks local s l s' es : step local s l = Some (s', es) -> NoDup (keys (tasks s)) ->
  NoDup (keys (tasks s')) /\
  (forall t p v src j, get Nat.eqb t (tasks s') = Some (TDeliver p v src j) ->
     (exists i, get Nat.eqb t (tasks s) = Some (TDeliver p v src i)) \/
     (get Nat.eqb t (tasks s) = None /\ (exists clock, if p then l = LPoll t v clock else l = LRequest t v clock) /\ (src = Live \/ exists o, src = Snap o /\ Permutation (queue s v) o))) /\
  (forall t, get Nat.eqb t (tasks s) = None -> ~ starts l t -> get Nat.eqb t (tasks s') = None).
Proof.
  intros H ND. destruct l as [v src cb ok dcb|v id|tid v clock|tid v clock|tid v rs|tid out|f]; cbn [step] in H.
  - assert (A : add_raw_event v src cb ok dcb s = (s', es)) by (destruct src; [|destruct (Nat.ltb _ _); [|discriminate]]; congruence).
    apply add_cases in A as (_ & _ & _ & T & _). rewrite T. split; [assumption|]. split; [intros; left; eauto|]. auto.
  - injection H as <- <-. destruct (cancel_cases v id s) as [[_ ->]|(r & _ & ->)]; simpl; (split; [assumption|]; split; [intros; left; eauto|]; auto).
  - destruct (mem _ _ _) eqn:M; [discriminate|]. apply mem_false_get in M. injection H as H. unfold poll in H. destruct (get scalar_eqb v (updated s)) as [[]|].
    2,3: apply pair_equal_spec in H as [<- _]; (split; [assumption|]; split; [intros; left; eauto|]; auto).
    apply request_tasks in H as (ND' & O & D); [|assumption..]. split; [assumption|]. split.
    + intros t p w src j G. destruct (Nat.eq_dec t tid) as [->|N]; [|rewrite O in G by assumption; eauto].
      destruct D as [D|(src' & j' & D & E)]; [congruence|]. rewrite D in G. injection G as <- <- <- <-. right. split; [assumption|]. split; [eauto|assumption].
    + intros t G N. cbn in N. rewrite O by congruence. assumption.
  - destruct (mem _ _ _) eqn:M; [discriminate|]. apply mem_false_get in M. injection H as H.
    apply request_tasks in H as (ND' & O & D); [|assumption..]. split; [assumption|]. split.
    + intros t p w src j G. destruct (Nat.eq_dec t tid) as [->|N]; [|rewrite O in G by assumption; eauto].
      destruct D as [D|(src' & j' & D & E)]; [congruence|]. rewrite D in G. injection G as <- <- <- <-. right. split; [assumption|]. split; [eauto|assumption].
    + intros t G N. cbn in N. rewrite O by congruence. assumption.
  - destruct (mem _ _ _) eqn:M; [discriminate|]. injection H as H. pose proof (created_frame _ _ _ _ _ _ H) as (_ & _ & _ & _ & _ & _ & O & _).
    apply created_tasks in H as (ND' & D); [|assumption]. split; [assumption|]. split.
    + intros t p w src j G. destruct (Nat.eq_dec t tid) as [->|N]; [|rewrite O in G by assumption; eauto].
      destruct D as [D|(rest & D)]; congruence.
    + intros t G N. cbn in N. rewrite O by congruence. assumption.
  - destruct (get Nat.eqb tid (tasks s)) as [tk|] eqn:G0; [|discriminate]. destruct out as [[]|e].
    + destruct tk as [p v src i|v rest]; injection H as H.
      * pose proof (deliver_tasks _ _ _ _ _ _ _ _ H ND) as ND'. apply deliver_frame in H as (_ & _ & _ & _ & _ & _ & _ & O & D). split; [assumption|]. split.
        -- intros t p' w src' j G. destruct (Nat.eq_dec t tid) as [->|N]; [|rewrite O in G by assumption; eauto].
           destruct D as [(j' & n & id & _ & D & _)|(_ & D & _)].
           ++ rewrite D in G. injection G as <- <- <- <-. left. eauto.
           ++ rewrite D, (get_del_same _ Nat.eqb_eq) in G by assumption. discriminate.
        -- intros t G _. rewrite O; [assumption|]. congruence.
      * pose proof (created_frame _ _ _ _ _ _ H) as (_ & _ & _ & _ & _ & _ & O & _).
        apply created_tasks in H as (ND' & D); [|assumption]. split; [assumption|]. split.
        -- intros t p w src j G. destruct (Nat.eq_dec t tid) as [->|N]; [|rewrite O in G by assumption; eauto].
           destruct D as [D|(rest' & D)]; congruence.
        -- intros t G _. rewrite O; [assumption|]. congruence.
    + injection H as <- _. simpl. split; [now apply nodup_del|]. split.
      * intros t p w src j G. destruct (Nat.eq_dec t tid) as [->|N]; [rewrite (get_del_same _ Nat.eqb_eq) in G by assumption; discriminate|].
        rewrite (get_del_other _ Nat.eqb_eq) in G by assumption. eauto.
      * intros t G _. rewrite (get_del_other _ Nat.eqb_eq); [assumption|]. congruence.
  - injection H as <- _. simpl. split; [assumption|]. split; [intros; left; eauto|]. auto.
Qed.

(** ** Histories *)
Lemma runs_app local P s1 ls1 es1 s2 ls2 es2 s3 : runs local P s1 ls1 es1 s2 -> runs local P s2 ls2 es2 s3 ->
  runs local P s1 (ls1 ++ ls2) (es1 ++ es2) s3.
Proof.
  intros H K. revert H. induction K as [s|s ls es sa l esl sb K IH Pl ST]; intros H; [now rewrite !app_nil_r|].
  rewrite !app_assoc. econstructor; eauto.
Qed.
Lemma runs_one local (P : state -> label -> Prop) s l es s' : P s l -> step local s l = Some (s', es) -> runs local P s [l] es s'.
Proof. intros Pl H. change [l] with ([] ++ [l])%list. change es with ([] ++ es)%list. econstructor; [constructor|eassumption..]. Qed.
Lemma runs_cons_inv local P s l ls es s' : runs local P s (l :: ls) es s' ->
  exists s1 es1 es2, P s l /\ step local s l = Some (s1, es1) /\ runs local P s1 ls es2 s' /\ es = (es1 ++ es2)%list.
Proof.
  intros H. remember (l :: ls) as L eqn:EL. revert l ls EL. induction H as [s|s la es sa k esl sb K IH Pl ST]; intros l ls EL; [discriminate|].
  destruct la as [|x la].
  - injection EL as -> <-. inversion K; subst; [|destruct ls; discriminate].
    exists sb, esl, []. rewrite app_nil_r. repeat split; auto. constructor.
  - injection EL as -> <-. destruct (IH l la eq_refl) as (s1 & e1 & e2 & P1 & S1 & R1 & ->).
    exists s1, e1, (e2 ++ esl)%list. repeat split; auto; [econstructor; eassumption|now rewrite app_assoc].
Qed.
Lemma runs_weaken local (P Q : state -> label -> Prop) s ls es s' : (forall s l, P s l -> Q s l) -> runs local P s ls es s' -> runs local Q s ls es s'.
Proof. intros I H. induction H; [constructor|]. econstructor; eauto. Qed.
Lemma runs_any local P s ls es s' : runs local P s ls es s' -> runs local any s ls es s'.
Proof. apply runs_weaken. intros; exact I. Qed.

Lemma runs_nodup_tasks local P s ls es s' : runs local P s ls es s' -> NoDup (keys (tasks s)) -> NoDup (keys (tasks s')).
Proof. intros H N. induction H; [assumption|]. eapply (proj1 (step_tasks _ _ _ _ _ H1 _)). Unshelve. auto. Qed.
Lemma runs_next local P s ls es s' : runs local P s ls es s' -> (next s <= next s')%nat.
Proof. intros H. induction H; [lia|]. apply step_next in H1. lia. Qed.
Lemma runs_heap local P s ls es s' : runs local P s ls es s' -> forall r, (r < next s)%nat -> later (heap s r) (heap s' r).
Proof.
  intros H r L. induction H as [s|s ls es s1 l es1 s2 H IH Pl ST]; [apply later_refl|].
  pose proof (runs_next _ _ _ _ _ _ H). eapply later_trans; [now apply IH|]. eapply step_heap; [exact ST|]. lia.
Qed.

Lemma initial_nodup s : initial s -> NoDup (keys (tasks s)).
Proof. intros (_ & _ & _ & _ & _ & _ & _ & T). rewrite T. constructor. Qed.

(** ** Where queued and distributed events come from (C30) *)
Definition pending (s : state) (v : scalar) (r : nat) : Prop :=
  In r (queue s v) \/ exists t p l i, get Nat.eqb t (tasks s) = Some (TDeliver p v (Snap l) i) /\ In r l.

Lemma added_more local P s0 ls v r e l e' : added local P s0 ls v r e -> later e e' -> added local P s0 (ls ++ [l]) v r e'.
Proof.
  intros (ls1 & es1 & s1 & src & cb & ok & dcb & ls2 & -> & R & S & L) L'.
  exists ls1, es1, s1, src, cb, ok, dcb, (ls2 ++ [l])%list. rewrite <- app_assoc. split; [reflexivity|]. split; [assumption|]. split; [assumption|]. eapply later_trans; eassumption.
Qed.

Lemma pending_added local P s0 ls es s : initial s0 -> runs local P s0 ls es s ->
  forall v r, pending s v r -> (r < next s)%nat /\ added local P s0 ls v r (heap s r).
Proof.
  intros I0 H. induction H as [s|s ls es s1 l es1 s2 H IH Pl ST]; intros v r PD.
  - destruct I0 as (_ & Q & _ & _ & _ & _ & _ & T). destruct PD as [I|(t & p & l & i & G & _)].
    + unfold queue in I. rewrite Q in I. contradiction.
    + rewrite T in G. discriminate.
  - assert (ND : NoDup (keys (tasks s1))) by (eapply runs_nodup_tasks; [exact H|now apply initial_nodup]).
    pose proof (step_next _ _ _ _ _ ST) as NX.
    assert (OLD : pending s1 v r -> (r < next s2)%nat /\ added local P s (ls ++ [l]) v r (heap s2 r)).
    { intros PD1. destruct (IH I0 v r PD1) as [B O]. split; [lia|]. eapply added_more; [exact O|]. eapply step_heap; [exact ST|assumption]. }
    destruct PD as [I|(t & p & o & i & G & I)].
    + destruct (step_queue _ _ _ _ _ ST v) as [E|[(src & cb & ok & dcb & -> & -> & E)|[(_ & S & _)|(rs & _ & S & _)]]].
      * apply OLD. left. now rewrite <- E.
      * rewrite E in I. apply in_app_iff in I as [I|[<-|[]]]; [apply OLD; now left|].
        cbn [step] in ST.
        assert (A : add_raw_event v src cb ok dcb s1 = (s2, []) /\ (object_of s1 src < next s2)%nat).
        { destruct src as [e|r']; simpl.
          - injection ST as ST. split; [assumption|]. apply add_cases in ST as (N & _). simpl in N. lia.
          - destruct (Nat.ltb_spec r' (next s1)); [|discriminate]. split; [congruence|]. lia. }
        destruct A as [A B]. split; [assumption|].
        exists ls, es, s1, src, cb, ok, dcb, []. split; [reflexivity|]. split; [assumption|]. split; [reflexivity|].
        apply add_cases in A as (_ & _ & _ & _ & [(x & C & _)|(e' & _ & PR & _ & HH & _)]); [discriminate|].
        rewrite HH, upd_same. now apply prepare_later.
      * apply OLD. left. eapply sublist_In; eassumption.
      * apply OLD. left. eapply sublist_In; eassumption.
    + destruct (proj1 (proj2 (step_tasks _ _ _ _ _ ST ND)) _ _ _ _ _ G) as [(j & G')|(_ & _ & [C|(o' & C & PP)])].
      * apply OLD. right. exists t, p, o, j. auto.
      * discriminate.
      * injection C as <-. apply OLD. left. eapply Permutation_in; [symmetry; exact PP|exact I].
Qed.

(** What a step sends was pending before it, or is in the queue. *)
Lemma sent_pending local s l s' es t v evs : step local s l = Some (s', es) -> In (ESent t v evs) es ->
  forall r, In r (map fst evs) -> pending s v r /\ In (r, heap s' r) evs.
Proof.
  intros ST IN r I. destruct (step_sent _ _ _ _ _ _ _ _ ST IN) as (_ & EV & D). split.
  - destruct D as [(clock & _ & _ & SUB & _)|(p & src & i & -> & G & C & _)]; [left; auto|].
    rewrite C in I. destruct src as [|o]; [now left|]. right. exists t, p, o, i. auto.
  - rewrite EV. apply in_map_iff. exists r. auto.
Qed.

Lemma sent_eq local s l s' es t v evs r e : step local s l = Some (s', es) -> In (ESent t v evs) es -> In (r, e) evs -> e = heap s' r.
Proof.
  intros ST IN I. destruct (step_sent _ _ _ _ _ _ _ _ ST IN) as (_ & EV & _). rewrite EV in I. apply in_map_iff in I as (x & E & _). now injection E as <- <-.
Qed.
