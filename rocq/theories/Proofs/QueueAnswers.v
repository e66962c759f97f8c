From Coq Require Import ZArith String List Bool Lia Sorting.Permutation.
From Verif.Base Require Import Result Dict PyStr ListExtra.
From Verif.Model Require Import Objects EventTime EventService.
From Verif.Spec Require Import EventSpec QueueSpec.
From Verif.Proofs Require Import EventTimeProofs QueueProofs QueueHistory QueueLaws.
Import ListNotations.
Local Open Scope Z_scope.

(** ** C33 *)
Lemma not_about s l : exists w, ~ about s l w.
Proof.
  assert (D : forall v, exists w : scalar, v <> w).
  { intros v. destruct (scalar_eq_dec v (SInt 0)) as [->|N]; [exists (SInt 1); discriminate|now exists (SInt 0)]. }
  destruct l as [v src cb ok dcb|v id|tid v clock|tid v clock|tid v rs|tid out|f]; cbn; try apply D.
  - destruct (get Nat.eqb tid (tasks s)) as [t|].
    + destruct (D (task_ven t)) as (w & N). exists w. intros (t' & E & K). injection E as <-. apply N. destruct t; exact K.
    + exists (SInt 0). intros (t' & E & _). discriminate.
  - exists (SInt 0). auto.
Qed.

Lemma heap_unchanged local s l s' es r : step local s l = Some (s', es) -> (forall v, ~ In r (queue s v)) ->
  (forall v src cb ok dcb, l = LAdd v src cb ok dcb -> object_of s src <> r) -> heap s' r = heap s r.
Proof.
  intros ST NQ NA. destruct (not_about s l) as (w & N). destruct (step_other _ _ _ _ _ w ST N) as (_ & _ & _ & HH).
  destruct (HH r) as [E|[(v & _ & I)|(v & src & cb & ok & dcb & E & O)]]; [assumption|exfalso; eapply NQ; exact I|exfalso; eapply NA; eassumption].
Qed.

(** An object that is in no queue is out of reach when nothing is added twice. *)
Lemma gone_step local s l s' es r : step local s l = Some (s', es) -> no_sharing s l -> (r < next s)%nat -> (forall v, ~ In r (queue s v)) ->
  (r < next s')%nat /\ (forall v, ~ In r (queue s' v)) /\ heap s' r = heap s r.
Proof.
  intros ST NS B NQ. split; [apply step_next in ST; lia|]. split.
  - intros v I. destruct (step_queue _ _ _ _ _ ST v) as [E|[(src & cb & ok & dcb & -> & _ & E)|[(_ & S & _)|(rs & _ & S & _)]]].
    + rewrite E in I. eapply NQ; exact I.
    + rewrite E in I. apply in_app_iff in I as [I|[I|[]]]; [eapply NQ; exact I|]. destruct src; [simpl in I; lia|exact NS].
    + eapply NQ. eapply sublist_In; eassumption.
    + eapply NQ. eapply sublist_In; eassumption.
  - eapply heap_unchanged; [exact ST|assumption|]. intros v src cb ok dcb -> E. destruct src; [simpl in E; lia|exact NS].
Qed.

Lemma no_task_no_send local P s ls es s' t : NoDup (keys (tasks s)) -> runs local P s ls es s' -> get Nat.eqb t (tasks s) = None ->
  Forall (fun l => ~ starts l t) ls -> get Nat.eqb t (tasks s') = None /\ forall v evs, ~ In (ESent t v evs) es.
Proof.
  intros ND H G. induction H as [s|s ls es s1 l es1 s2 H IH Pl ST]; intros A; [split; [assumption|intros v evs []]|].
  apply Forall_app in A as [A1 A2]. inversion A2 as [|? ? NS _]; subst. destruct (IH ND G A1) as [G1 N1].
  assert (ND1 : NoDup (keys (tasks s1))) by (eapply runs_nodup_tasks; eassumption). split.
  - now apply (proj2 (proj2 (step_tasks _ _ _ _ _ ST ND1))).
  - intros v evs I. apply in_app_iff in I as [I|I]; [eapply N1; exact I|].
    destruct (step_sent _ _ _ _ _ _ _ _ ST I) as (_ & _ & [(clock & L & _)|(p & src & i & _ & G' & _)]); [|congruence].
    apply NS. destruct L as [-> | ->]; reflexivity.
Qed.

Lemma request_dropped local s0 ls es s l s1 es1 t v clock r : initial s0 -> runs local no_sharing s0 ls es s ->
  (l = LPoll t v clock \/ l = LRequest t v clock) -> step local s l = Some (s1, es1) -> (forall x, ~ In (EFail t v x) es1) -> ~ In (EEmpty t v) es1 ->
  In r (queue s v) -> ev_status (heap s1 r) = Completed -> (r < next s1)%nat /\ forall w, ~ In r (queue s1 w).
Proof.
  intros I0 H L ST NF NE I C.
  assert (B : (r < next s)%nat) by (eapply (pending_added _ _ _ _ _ _ I0 H v r); now left).
  split; [apply step_next in ST; lia|]. intros w J.
  assert (R : exists p, request_event local t p v clock s = (s1, es1)).
  { destruct L as [-> | ->]; cbn [step] in ST; (destruct (mem _ _ _); [discriminate|]); injection ST as ST; [|eauto].
    unfold poll in ST. destruct (get scalar_eqb v (updated s)) as [[]|]; [eauto|apply pair_equal_spec in ST as [_ <-]; exfalso; apply NE; now left..]. }
  destruct R as (p & R). pose proof (request_queue _ _ _ _ _ _ _ _ R) as (Q1 & Q2 & Q3 & Q4).
  destruct (scalar_eq_dec w v) as [->|N].
  - rewrite Q4 in J; [tauto|]. intros t' x IN.
    destruct (request_cases local t p v clock s) as [[Q R']|(NQ & h & Hh & [(e & R' & _)|(o & q' & i' & s2 & _ & _ & SUB & IFF & _ & A & _ & _ & _ & _ & _ & _ & _ & _ & _ & R')])]; rewrite R' in R.
    + apply pair_equal_spec in R as [_ <-]. destruct IN as [K|[]]; discriminate.
    + apply pair_equal_spec in R as [_ <-]. destruct IN as [K|[]]. injection K as <- <-. eapply NF. now left.
    + apply deliver_frame in R as (_ & _ & _ & _ & _ & _ & _ & _ & [(j & n & id & -> & _)|(-> & _)]); destruct IN as [K|[]]; discriminate.
  - rewrite Q1 in J by assumption. apply N. symmetry. eapply disjoint_queues; [exact I0|exact H|exact I|exact J].
Qed.

Lemma completed_sent local s0 ls es s l s1 es1 t v clock r ls' es' s2 evs : initial s0 -> runs local no_sharing s0 ls es s ->
  (l = LPoll t v clock \/ l = LRequest t v clock) -> step local s l = Some (s1, es1) ->
  In r (queue s v) -> (2 <= length (queue s v))%nat -> ev_status (heap s1 r) = Completed ->
  runs local no_sharing s1 ls' es' s2 -> Forall (fun l => ~ starts l t) ls' -> In (ESent t v evs) (es1 ++ es') -> In (r, heap s1 r) evs.
Proof.
  intros I0 H L ST I LEN C R A IN.
  assert (ND : NoDup (keys (tasks s))) by (eapply runs_nodup_tasks; [exact H|now apply initial_nodup]).
  assert (ND1 : NoDup (keys (tasks s1))) by exact (proj1 (step_tasks _ _ _ _ _ ST ND)).
  assert (NS : is_single (queue s v) = false) by (destruct (queue s v) as [|x [|y q]]; [reflexivity|simpl in LEN; lia|reflexivity]).
  apply in_app_iff in IN as [IN|IN].
  - assert (RQ : exists p, request_event local t p v clock s = (s1, es1)).
    { destruct L as [-> | ->]; cbn [step] in ST; (destruct (mem _ _ _); [discriminate|]); injection ST as ST; [|eauto].
      unfold poll in ST. destruct (get scalar_eqb v (updated s)) as [[]|]; [eauto|apply pair_equal_spec in ST as [_ <-]; destruct IN as [K|[]]; discriminate..]. }
    destruct RQ as (p & RQ). destruct (request_sent _ _ _ _ _ _ _ _ _ _ _ RQ IN) as (_ & _ & _ & EV & PP & _). rewrite NS in EV.
    rewrite EV. apply in_map_iff. exists r. split; [reflexivity|]. eapply Permutation_in; [apply PP; exact NS|exact I].
  - destruct (get Nat.eqb t (tasks s1)) as [tk|] eqn:G.
    2:{ exfalso. destruct (no_task_no_send _ _ _ _ _ _ _ ND1 R G A) as [_ K]. eapply K; exact IN. }
    assert (GT : exists p o i, get Nat.eqb t (tasks s1) = Some (TDeliver p v (Snap o) i) /\ In r o /\ (forall x, ~ In (EFail t v x) es1) /\ ~ In (EEmpty t v) es1).
    { destruct L as [-> | ->]; cbn [step] in ST; (destruct (mem _ _ _) eqn:M; [discriminate|]); apply mem_false_get in M; injection ST as ST.
      - unfold poll in ST. destruct (get scalar_eqb v (updated s)) as [[]|]; [|apply pair_equal_spec in ST as [<- _]; congruence..].
        destruct (request_cases local t true v clock s) as [[Q R']|(NQ & h & Hh & [(e & R' & _)|(o & q' & i' & sa & _ & P & SUB & IFF & _ & B1 & _ & _ & _ & _ & _ & TS & _ & _ & _ & R')])]; rewrite R' in ST.
        + apply pair_equal_spec in ST as [<- _]. simpl in G. congruence.
        + apply pair_equal_spec in ST as [<- _]. simpl in G. congruence.
        + rewrite NS in ST. apply deliver_frame in ST as (_ & _ & _ & _ & _ & _ & _ & _ & [(j & n & id & -> & T & _)|(-> & T & _)]).
          * exists true, o, j. split; [assumption|]. split; [eapply Permutation_in; eassumption|]. split; [intros x [K|[]]; discriminate|intros [K|[]]; discriminate].
          * rewrite T, TS, (get_del_same _ Nat.eqb_eq) in G by assumption. discriminate.
      - destruct (request_cases local t false v clock s) as [[Q R']|(NQ & h & Hh & [(e & R' & _)|(o & q' & i' & sa & _ & P & SUB & IFF & _ & B1 & _ & _ & _ & _ & _ & TS & _ & _ & _ & R')])]; rewrite R' in ST.
        + apply pair_equal_spec in ST as [<- _]. simpl in G. congruence.
        + apply pair_equal_spec in ST as [<- _]. simpl in G. congruence.
        + rewrite NS in ST. apply deliver_frame in ST as (_ & _ & _ & _ & _ & _ & _ & _ & [(j & n & id & -> & T & _)|(-> & T & _)]).
          * exists false, o, j. split; [assumption|]. split; [eapply Permutation_in; eassumption|]. split; [intros x [K|[]]; discriminate|intros [K|[]]; discriminate].
          * rewrite T, TS, (get_del_same _ Nat.eqb_eq) in G by assumption. discriminate. }
    destruct GT as (p & o & i & G1 & IO & NF & NE).
    destruct (request_dropped _ _ _ _ _ _ _ _ _ _ _ _ I0 H L ST NF NE I C) as [B NQ].
    assert (INV : (r < next s2)%nat /\ (forall w, ~ In r (queue s2 w)) /\ heap s2 r = heap s1 r /\ NoDup (keys (tasks s2)) /\
      (forall p' w src j, get Nat.eqb t (tasks s2) = Some (TDeliver p' w src j) -> src = Snap o) /\ (forall v' evs', In (ESent t v' evs') es' -> In (r, heap s1 r) evs')).
    { clear IN. induction R as [s1|s1 ls1 e1 sa l' el sb R IH Pl STb].
      - repeat split; auto; [|intros v' evs' []]. intros p' w src j G2. rewrite G1 in G2. congruence.
      - apply Forall_app in A as [A1 A2]. inversion A2 as [|? ? NSt _]; subst.
        destruct (IH ST C A1 ND1 G G1 B NQ) as (B1 & NQ1 & H1 & NDa & T1 & S1).
        destruct (gone_step _ _ _ _ _ r STb Pl B1 NQ1) as (B2 & NQ2 & H2).
        repeat split; auto; [congruence|exact (proj1 (step_tasks _ _ _ _ _ STb NDa))| |].
        + intros p' w src j G2. destruct (proj1 (proj2 (step_tasks _ _ _ _ _ STb NDa)) _ _ _ _ _ G2) as [(j' & G')|(_ & (clock' & E) & _)]; [eapply T1; exact G'|].
          exfalso. apply NSt. destruct p'; subst l'; reflexivity.
        + intros v' evs' I'. apply in_app_iff in I' as [I'|I']; [eapply S1; exact I'|].
          destruct (step_sent _ _ _ _ _ _ _ _ STb I') as (_ & EV & [(clock' & LL & _)|(p' & src & j & -> & G' & CC & _)]).
          * exfalso. apply NSt. destruct LL; subst l'; reflexivity.
          * rewrite EV. apply in_map_iff. exists r. split; [congruence|]. rewrite CC, (T1 _ _ _ _ G'). exact IO. }
    destruct INV as (_ & _ & _ & _ & _ & S). eapply S; exact IN.
Qed.

Lemma completed_never_again local s1 r ls' es' s2 t v evs : NoDup (keys (tasks s1)) -> (r < next s1)%nat -> (forall w, ~ In r (queue s1 w)) ->
  runs local no_sharing s1 ls' es' s2 -> get Nat.eqb t (tasks s1) = None -> In (ESent t v evs) es' -> ~ In r (map fst evs).
Proof.
  intros ND B NQ R G IN.
  assert (INV : (r < next s2)%nat /\ (forall w, ~ In r (queue s2 w)) /\ NoDup (keys (tasks s2)) /\
    (forall t' p w o j, get Nat.eqb t' (tasks s2) = Some (TDeliver p w (Snap o) j) -> In r o -> get Nat.eqb t' (tasks s1) <> None) /\
    (forall v evs, In (ESent t v evs) es' -> ~ In r (map fst evs))).
  { clear IN. induction R as [s1|s1 ls1 e1 sa l' el sb R IH Pl STb].
    - repeat split; auto. congruence.
    - destruct (IH ND B NQ G) as (B1 & NQ1 & NDa & T1 & S1). destruct (gone_step _ _ _ _ _ r STb Pl B1 NQ1) as (B2 & NQ2 & _).
      repeat split; auto; [exact (proj1 (step_tasks _ _ _ _ _ STb NDa))| |].
      + intros t' p w o j G2 IO. destruct (proj1 (proj2 (step_tasks _ _ _ _ _ STb NDa)) _ _ _ _ _ G2) as [(j' & G')|(_ & _ & [K|(o' & K & P)])]; [eapply T1; eassumption|discriminate|].
        injection K as <-. exfalso. eapply NQ1. eapply Permutation_in; [symmetry; exact P|exact IO].
      + intros v' evs' I' J. apply in_app_iff in I' as [I'|I']; [eapply S1; eassumption|].
        destruct (step_sent _ _ _ _ _ _ _ _ STb I') as (_ & _ & [(clock' & _ & _ & SUB & _)|(p' & src & j & -> & G' & CC & _)]).
        * eapply NQ1. apply SUB. exact J.
        * rewrite CC in J. destruct src as [|o]; [eapply NQ1; exact J|]. eapply T1; [exact G'|exact J|exact G]. }
  destruct INV as (_ & _ & _ & _ & S). eapply S; exact IN.
Qed.

(** ** C34 *)
Lemma created_calls tid v rs : forall s s' es, created_event tid v rs s = (s', es) -> NoDup (keys (callbacks s)) ->
  NoDup (keys (callbacks s')) /\ (forall k c, get scalar_eqb k (callbacks s') = Some c -> get scalar_eqb k (callbacks s) = Some c) /\
  (forall f, In f (done s) -> In f (done s')) /\
  (forall n w id opt, In (ECall n w id opt) es -> w = v /\ get scalar_eqb id (callbacks s) = Some (CFun n) /\
     exists resp r, In resp rs /\ rs_id resp = id /\ rs_opt resp = opt /\ In r (queue s v) /\ ev_id (heap s r) = id /\ SInt (ev_mod (heap s r)) = rs_mod resp) /\
  (forall f w id opt, In (EResult f w id opt) es -> w = v /\ get scalar_eqb id (callbacks s) = Some (CFut f) /\ ~ In f (done s) /\ In f (done s') /\
     exists resp r, In resp rs /\ rs_id resp = id /\ rs_opt resp = opt /\ In r (queue s v) /\ ev_id (heap s r) = id /\ SInt (ev_mod (heap s r)) = rs_mod resp).
Proof.
  induction rs as [|r rest IH]; intros s s' es H ND; cbn [created_event] in H.
  - apply pair_equal_spec in H as [<- <-]. simpl. repeat split; auto; exfalso; destruct H as [K|[]]; discriminate.
  - assert (FAIL : forall x, (with_tasks (del Nat.eqb tid (tasks s)) s, [EFail tid v x]) = (s', es) ->
      NoDup (keys (callbacks s')) /\ (forall k c, get scalar_eqb k (callbacks s') = Some c -> get scalar_eqb k (callbacks s) = Some c) /\
  (forall f, In f (done s) -> In f (done s')) /\
  (forall n w id opt, In (ECall n w id opt) es -> w = v /\ get scalar_eqb id (callbacks s) = Some (CFun n) /\
     exists resp x, In resp (r :: rest) /\ rs_id resp = id /\ rs_opt resp = opt /\ In x (queue s v) /\ ev_id (heap s x) = id /\ SInt (ev_mod (heap s x)) = rs_mod resp) /\
  (forall f w id opt, In (EResult f w id opt) es -> w = v /\ get scalar_eqb id (callbacks s) = Some (CFut f) /\ ~ In f (done s) /\ In f (done s') /\
     exists resp x, In resp (r :: rest) /\ rs_id resp = id /\ rs_opt resp = opt /\ In x (queue s v) /\ ev_id (heap s x) = id /\ SInt (ev_mod (heap s x)) = rs_mod resp)).
    { intros x E. apply pair_equal_spec in E as [<- <-]. simpl. repeat split; auto; exfalso; destruct H0 as [K|[]]; discriminate. }
    destruct (get scalar_eqb v (queues s)) as [q|] eqn:Q; [|eauto].
    destruct (find_response (heap s) q r) as [f|] eqn:F; [|destruct (existsb _ _); eauto]. clear FAIL.
    pose proof (queue_get _ _ _ Q) as QV.
    apply find_response_some in F as (IF & F1 & F2). rewrite <- QV in IF.
    change (if status_eqb (ev_status (heap s f)) Cancelled then set_queue v (pop_id (heap s) (rs_id r) q) s else s) with (after_response s v r q f) in H.
    pose proof (after_frame s v r q f) as AF. cbv zeta in AF.
    assert (AQ : forall x, In x (queue (after_response s v r q f) v) -> In x (queue s v)).
    { intros x. unfold after_response. destruct (status_eqb _ _); [|auto]. rewrite queue_set_same, QV. intros I. eapply sublist_In; [apply pop_id_sub|exact I]. }
    set (s1 := after_response s v r q f) in *. clearbody s1. destruct AF as (A1 & A2 & A3 & A4 & A5 & A6 & A7 & A8).
    assert (DEL : forall k c, get scalar_eqb k (del scalar_eqb (rs_id r) (callbacks s)) = Some c -> get scalar_eqb k (callbacks s) = Some c).
    { intros k c. destruct (scalar_eq_dec k (rs_id r)) as [->|N]; [rewrite (get_del_same _ scalar_eqb_eq) by assumption; discriminate|].
      now rewrite (get_del_other _ scalar_eqb_eq) by assumption. }
    destruct (get scalar_eqb (rs_id r) (callbacks s1)) as [[n|n]|] eqn:C.
    + apply pair_equal_spec in H as [<- <-]. simpl. rewrite A5, A7 in *. split; [now apply nodup_del|]. split; [assumption|]. split; [auto|]. split.
      * intros m w id opt [K|[]]. injection K as <- <- <- <-. split; [reflexivity|]. split; [assumption|]. exists r, f. split; [now left|]. auto 6.
      * intros g w id opt [K|[]]; discriminate.
    + destruct (existsb (Nat.eqb n) (done _)) eqn:D.
      * apply IH in H as (B1 & B2 & B3 & B4 & B5); [|simpl; rewrite A5; now apply nodup_del]. simpl in *. rewrite A5, A7, A1 in *.
        split; [assumption|]. split; [auto|]. split; [assumption|]. split.
        -- intros m w id opt K. destruct (B4 _ _ _ _ K) as (K1 & K2 & resp & x & K3 & K4 & K5 & K6 & K7 & K8). split; [assumption|]. split; [auto|].
           exists resp, x. change (queue (with_callbacks (del scalar_eqb (rs_id r) (callbacks s)) s1) v) with (queue s1 v) in K6. repeat split; auto.
        -- intros m w id opt K. destruct (B5 _ _ _ _ K) as (K1 & K2 & K2a & K2b & resp & x & K3 & K4 & K5 & K6 & K7 & K8). split; [assumption|]. split; [auto|]. split; [assumption|]. split; [assumption|].
           exists resp, x. change (queue (with_callbacks (del scalar_eqb (rs_id r) (callbacks s)) s1) v) with (queue s1 v) in K6. repeat split; auto.
      * destruct (created_event tid v rest _) as [s2 es2] eqn:R. apply pair_equal_spec in H as [<- <-].
        assert (ND' : ~ In n (done s)).
        { intros I. simpl in D. rewrite A7 in D. assert (existsb (Nat.eqb n) (done s) = true) by (apply existsb_exists; exists n; split; [assumption|apply Nat.eqb_refl]). congruence. }
        apply IH in R as (B1 & B2 & B3 & B4 & B5); [|simpl; rewrite A5; now apply nodup_del]. simpl in *. rewrite A5, A7, A1 in *.
        split; [assumption|]. split; [auto|]. split; [auto|]. split.
        -- intros m w id opt [K|K]; [discriminate|]. destruct (B4 _ _ _ _ K) as (K1 & K2 & resp & x & K3 & K4 & K5 & K6 & K7 & K8). split; [assumption|]. split; [auto|].
           exists resp, x. change (In x (queue s1 v)) in K6. repeat split; auto.
        -- intros m w id opt [K|K].
           ++ injection K as <- <- <- <-. split; [reflexivity|]. split; [assumption|]. split; [assumption|]. split; [auto|]. exists r, f. split; [now left|]. auto 6.
           ++ destruct (B5 _ _ _ _ K) as (K1 & K2 & K2a & K2b & resp & x & K3 & K4 & K5 & K6 & K7 & K8). split; [assumption|]. split; [auto|]. split; [tauto|]. split; [assumption|].
              exists resp, x. change (In x (queue s1 v)) in K6. repeat split; auto.
    + apply IH in H as (B1 & B2 & B3 & B4 & B5); [|now rewrite A5]. rewrite A5, A7, A1 in *.
      split; [assumption|]. split; [auto|]. split; [assumption|]. split.
      * intros m w id opt K. destruct (B4 _ _ _ _ K) as (K1 & K2 & resp & x & K3 & K4 & K5 & K6 & K7 & K8). split; [assumption|]. split; [auto|].
        exists resp, x. split; [now right|]. repeat split; auto.
      * intros m w id opt K. destruct (B5 _ _ _ _ K) as (K1 & K2 & K2a & K2b & resp & x & K3 & K4 & K5 & K6 & K7 & K8). split; [assumption|]. split; [auto|]. split; [assumption|]. split; [assumption|].
        exists resp, x. split; [now right|]. repeat split; auto.
Qed.

(** *** Counting *)
Definition same_cb (c d : callback) : bool :=
  match c, d with CFun n, CFun m => Nat.eqb n m | CFut n, CFut m => Nat.eqb n m | _, _ => false end.
Definition registered (c : callback) (d : @dict scalar callback) : nat := count (fun kv => same_cb c (snd kv)) d.

Lemma count_app {A} (p : A -> bool) a b : count p (a ++ b) = (count p a + count p b)%nat.
Proof. unfold count. now rewrite filter_app, app_length. Qed.
Lemma count_nil {A} (p : A -> bool) : count p [] = 0%nat.
Proof. reflexivity. Qed.
Lemma count_cons {A} (p : A -> bool) x l : count p (x :: l) = ((if p x then 1 else 0) + count p l)%nat.
Proof. unfold count. simpl. now destruct (p x). Qed.

Lemma registered_set c k c' d : (registered c (set scalar_eqb k c' d) <= registered c d + if same_cb c c' then 1 else 0)%nat.
Proof.
  unfold registered. induction d as [|[k0 c0] d IH]; simpl.
  - rewrite count_cons. simpl. unfold count; simpl; lia.
  - destruct (scalar_eqb k k0); rewrite !count_cons; simpl; [destruct (same_cb c c'), (same_cb c c0); lia|lia].
Qed.
Lemma registered_del c k d c0 : get scalar_eqb k d = Some c0 ->
  (registered c (del scalar_eqb k d) + (if same_cb c c0 then 1 else 0) = registered c d)%nat.
Proof.
  unfold registered. induction d as [|[k1 c1] d IH]; simpl; [discriminate|]. destruct (scalar_eqb k k1).
  - intros E. injection E as ->. rewrite count_cons. simpl. lia.
  - intros E. rewrite !count_cons. specialize (IH E). simpl. lia.
Qed.

Lemma created_count tid v c rs : forall s s' es, created_event tid v rs s = (s', es) ->
  (count (invokes c) es + registered c (callbacks s') <= registered c (callbacks s))%nat.
Proof.
  induction rs as [|r rest IH]; intros s s' es H; cbn [created_event] in H.
  - apply pair_equal_spec in H as [<- <-]. rewrite count_cons. destruct c; simpl; unfold count; simpl; lia.
  - assert (FAIL : forall x, (with_tasks (del Nat.eqb tid (tasks s)) s, [EFail tid v x]) = (s', es) -> (count (invokes c) es + registered c (callbacks s') <= registered c (callbacks s))%nat).
    { intros x E. apply pair_equal_spec in E as [<- <-]. rewrite count_cons. destruct c; simpl; unfold count; simpl; lia. }
    destruct (get scalar_eqb v (queues s)) as [q|] eqn:Q; [|eauto].
    destruct (find_response (heap s) q r) as [f|] eqn:F; [|destruct (existsb _ _); eauto]. clear FAIL.
    change (if status_eqb (ev_status (heap s f)) Cancelled then set_queue v (pop_id (heap s) (rs_id r) q) s else s) with (after_response s v r q f) in H.
    pose proof (after_frame s v r q f) as AF. cbv zeta in AF. destruct AF as (_ & _ & _ & _ & A5 & _ & A7 & _).
    set (s1 := after_response s v r q f) in *. clearbody s1.
    destruct (get scalar_eqb (rs_id r) (callbacks s1)) as [[n|n]|] eqn:C.
    + apply pair_equal_spec in H as [<- <-]. simpl. rewrite A5 in *. pose proof (registered_del c _ _ _ C) as D. rewrite count_cons.
      replace (invokes c (ECall n v (rs_id r) (rs_opt r))) with (same_cb c (CFun n)) by (destruct c; reflexivity). rewrite count_nil. lia.
    + pose proof (registered_del c _ _ _ C) as D. destruct (existsb (Nat.eqb n) _).
      * apply IH in H. simpl in H. rewrite A5 in *. lia.
      * destruct (created_event tid v rest _) as [s2 es2] eqn:R. apply pair_equal_spec in H as [<- <-]. apply IH in R. simpl in R. rewrite A5 in *. rewrite count_cons.
        replace (invokes c (EResult n v (rs_id r) (rs_opt r))) with (same_cb c (CFut n)) by (destruct c; reflexivity). lia.
    + apply IH in H. now rewrite A5 in *.
Qed.

Lemma request_no_calls local tid p v clock s s' es c : request_event local tid p v clock s = (s', es) ->
  count (invokes c) es = 0%nat /\ callbacks s' = callbacks s /\ done s' = done s.
Proof.
  intros R0. destruct (request_cases local tid p v clock s) as [[Q R]|(NQ & h & Hh & [(e & R & _)|(o & q' & i' & s1 & _ & _ & SUB & IFF & _ & A & B & _ & CB & _ & DN & _ & _ & _ & _ & R)])]; rewrite R in R0.
  - apply pair_equal_spec in R0 as [<- <-]. destruct p, c; repeat split.
  - apply pair_equal_spec in R0 as [<- <-]. destruct c; repeat split.
  - apply deliver_frame in R0 as (_ & _ & _ & _ & _ & C & D & _ & [(j & n & id & -> & _)|(-> & _)]); rewrite C, D, CB, DN; destruct c; repeat split.
Qed.

(** The parts of a step that concern callbacks. *)
Lemma step_calls local s l s' es c : step local s l = Some (s', es) ->
  (count (invokes c) es = 0%nat /\ done s' = done s /\ callbacks s' = callbacks s) \/
  (exists f, l = LFuture f /\ es = [] /\ done s' = f :: done s /\ callbacks s' = callbacks s) \/
  (exists v src cb ok dcb, l = LAdd v src (Some cb) ok dcb /\ es = [] /\ done s' = done s /\ callbacks s' = set scalar_eqb (id_of s src) cb (callbacks s)) \/
  (exists tid v rs, answers s l v rs /\ created_event tid v rs s = (s', es)).
Proof.
  intros H. destruct l as [v src cb ok dcb|v id|tid v clock|tid v clock|tid v rs|tid out|f].
  - apply add_step in H as (A & _). apply add_cases in A as (_ & _ & D & _ & [(x & -> & _ & _ & C & _)|(e' & -> & _ & _ & _ & _ & _ & _ & C & _)]).
    + left. rewrite C, D. destruct c; repeat split.
    + destruct cb as [cb|]; [|left; rewrite C, D; destruct c; repeat split]. right; right; left. exists v, src, cb, ok, dcb. repeat split; auto. now destruct src.
  - cbn [step] in H. injection H as <- <-. left. destruct (cancel_cases v id s) as [[_ ->]|(r & _ & ->)]; destruct c; repeat split.
  - cbn [step] in H. destruct (mem _ _ _); [discriminate|]. injection H as H. left. unfold poll in H. destruct (get scalar_eqb v (updated s)) as [[]|].
    + apply (request_no_calls _ _ _ _ _ _ _ _ c) in H. tauto.
    + apply pair_equal_spec in H as [<- <-]. destruct c; repeat split.
    + apply pair_equal_spec in H as [<- <-]. destruct c; repeat split.
  - cbn [step] in H. destruct (mem _ _ _); [discriminate|]. injection H as H. left. apply (request_no_calls _ _ _ _ _ _ _ _ c) in H. tauto.
  - cbn [step] in H. destruct (mem _ _ _); [discriminate|]. injection H as H. right; right; right. exists tid, v, rs. split; [exists tid; now left|assumption].
  - cbn [step] in H. destruct (get Nat.eqb tid (tasks s)) as [t|] eqn:G; [|discriminate]. destruct out as [[]|e].
    + destruct t as [p v src i|v rest]; injection H as H.
      * left. apply deliver_frame in H as (_ & _ & _ & _ & _ & C & D & _ & [(j & n & id & -> & _)|(-> & _)]); rewrite C, D; destruct c; repeat split.
      * right; right; right. exists tid, v, rest. split; [exists tid; now right|assumption].
    + injection H as <- <-. left. destruct c; repeat split.
  - cbn [step] in H. injection H as <- <-. right; left. exists f. repeat split.
Qed.

Lemma calls_at_most local P s0 ls es s c : initial s0 -> runs local P s0 ls es s ->
  (count (invokes c) es + registered c (callbacks s) <= count (adds_callback c) ls)%nat.
Proof.
  intros I0 H. induction H as [s|s ls es s1 l es1 s2 H IH Pl ST].
  - destruct I0 as (_ & _ & _ & _ & C & _). rewrite C. unfold count, registered, count. simpl. lia.
  - specialize (IH I0). rewrite !count_app.
    destruct (step_calls _ _ _ _ _ c ST) as [(A & _ & B)|[(f & -> & -> & _ & B)|[(v & src & cb & ok & dcb & -> & -> & _ & B)|(tid & v & rs & _ & B)]]].
    + rewrite A, B. lia.
    + rewrite B, count_nil. lia.
    + rewrite B. pose proof (registered_set c (id_of s1 src) cb (callbacks s1)) as K. rewrite !count_cons.
      replace (adds_callback c (LAdd v src (Some cb) ok dcb)) with (same_cb c cb) by (destruct c, cb; reflexivity).
      rewrite !count_nil. lia.
    + apply (created_count _ _ c) in B. lia.
Qed.

(** *** Futures *)
Definition b2n (b : bool) : nat := if b then 1%nat else 0%nat.
Definition is_done (f : nat) (s : state) : bool := existsb (Nat.eqb f) (done s).
Lemma is_done_In f s : is_done f s = true <-> In f (done s).
Proof. unfold is_done. rewrite existsb_exists. split; [intros (x & I & E); apply Nat.eqb_eq in E; congruence|intros I; exists f; split; [assumption|apply Nat.eqb_refl]]. Qed.

Lemma created_future tid v f rs : forall s s' es, created_event tid v rs s = (s', es) ->
  (count (invokes (CFut f)) es + b2n (is_done f s) <= b2n (is_done f s'))%nat.
Proof.
  induction rs as [|r rest IH]; intros s s' es H; cbn [created_event] in H.
  - apply pair_equal_spec in H as [<- <-]. unfold count; simpl. reflexivity.
  - assert (FAIL : forall x, (with_tasks (del Nat.eqb tid (tasks s)) s, [EFail tid v x]) = (s', es) -> (count (invokes (CFut f)) es + b2n (is_done f s) <= b2n (is_done f s'))%nat).
    { intros x E. apply pair_equal_spec in E as [<- <-]. unfold count; simpl. reflexivity. }
    destruct (get scalar_eqb v (queues s)) as [q|] eqn:Q; [|eauto].
    destruct (find_response (heap s) q r) as [g|] eqn:F; [|destruct (existsb _ _); eauto]. clear FAIL.
    change (if status_eqb (ev_status (heap s g)) Cancelled then set_queue v (pop_id (heap s) (rs_id r) q) s else s) with (after_response s v r q g) in H.
    pose proof (after_frame s v r q g) as AF. cbv zeta in AF. destruct AF as (_ & _ & _ & _ & A5 & _ & A7 & _).
    set (s1 := after_response s v r q g) in *. clearbody s1.
    assert (D1 : is_done f s1 = is_done f s) by (unfold is_done; now rewrite A7).
    destruct (get scalar_eqb (rs_id r) (callbacks s1)) as [[n|n]|] eqn:C.
    + apply pair_equal_spec in H as [<- <-]. rewrite <- D1. unfold count; simpl. reflexivity.
    + destruct (existsb (Nat.eqb n) _) eqn:D.
      * apply IH in H. rewrite <- D1. exact H.
      * destruct (created_event tid v rest _) as [s2 es2] eqn:R. apply pair_equal_spec in H as [<- <-]. apply IH in R. rewrite count_cons. rewrite <- D1.
        cbn [invokes]. unfold is_done at 1 in R. cbn [done with_done existsb with_callbacks] in R. cbn [done with_callbacks] in D.
        destruct (Nat.eqb_spec f n) as [->|N]; simpl in R.
        -- unfold is_done at 1. rewrite D. simpl. lia.
        -- unfold is_done at 1. lia.
    + apply IH in H. now rewrite <- D1.
Qed.

Lemma future_once local P s ls es s' f : runs local P s ls es s' -> (count (invokes (CFut f)) es + b2n (is_done f s) <= b2n (is_done f s'))%nat.
Proof.
  intros H. induction H as [s|s ls es s1 l es1 s2 H IH Pl ST]; [unfold count; simpl; lia|]. rewrite count_app.
  destruct (step_calls _ _ _ _ _ (CFut f) ST) as [(A & B & _)|[(g & -> & -> & B & _)|[(v & src & cb & ok & dcb & -> & -> & B & _)|(tid & v & rs & _ & B)]]].
  - assert (E : is_done f s2 = is_done f s1) by (unfold is_done; now rewrite B). rewrite E. lia.
  - assert (E : (b2n (is_done f s1) <= b2n (is_done f s2))%nat) by (unfold is_done; rewrite B; simpl; destruct (Nat.eqb f g); simpl; [|lia]; destruct (existsb _ _); simpl; lia).
    rewrite count_nil. lia.
  - assert (E : is_done f s2 = is_done f s1) by (unfold is_done; now rewrite B). rewrite E, count_nil. lia.
  - apply (created_future _ _ f) in B. lia.
Qed.

(** *** Where a callback comes from *)
Definition given (local : Z -> Z) (P : state -> label -> Prop) (s0 : state) (ls : list label) (id : scalar) (c : callback) : Prop :=
  exists ls1 es1 s1 v src ok dcb ls2, ls = (ls1 ++ LAdd v src (Some c) ok dcb :: ls2)%list /\ runs local P s0 ls1 es1 s1 /\ id_of s1 src = id.

Lemma callbacks_given local P s0 ls es s : initial s0 -> runs local P s0 ls es s ->
  NoDup (keys (callbacks s)) /\ forall k c, get scalar_eqb k (callbacks s) = Some c -> given local P s0 ls k c.
Proof.
  intros I0 H. induction H as [s|s ls es s1 l es1 s2 H IH Pl ST].
  - destruct I0 as (_ & _ & _ & _ & C & _). rewrite C. split; [constructor|]. discriminate.
  - destruct (IH I0) as [ND K].
    assert (MORE : forall k c, given local P s ls k c -> given local P s (ls ++ [l]) k c).
    { intros k c (ls1 & es1' & s1' & v & src & ok & dcb & ls2 & -> & R & E). exists ls1, es1', s1', v, src, ok, dcb, (ls2 ++ [l])%list. rewrite <- app_assoc. auto. }
    destruct (step_calls _ _ _ _ _ (CFun 0) ST) as [(_ & _ & B)|[(g & -> & _ & _ & B)|[(v & src & cb & ok & dcb & -> & _ & _ & B)|(tid & v & rs & _ & B)]]].
    + rewrite B. auto.
    + rewrite B. auto.
    + rewrite B. split; [now apply (nodup_set _ scalar_eqb_eq)|]. intros k c. destruct (scalar_eq_dec k (id_of s1 src)) as [->|N].
      * rewrite (get_set_same _ scalar_eqb_eq). intros E. injection E as <-. exists ls, es, s1, v, src, ok, dcb, []. auto.
      * rewrite (get_set_other _ scalar_eqb_eq) by assumption. auto.
    + destruct (created_calls _ _ _ _ _ _ B ND) as (ND' & K' & _). split; [assumption|]. intros k c G. auto.
Qed.

(** ** C35, C36 *)
Lemma del_absent {V} (d : @dict nat V) t : get Nat.eqb t d = None -> del Nat.eqb t d = d.
Proof. induction d as [|[k x] d IH]; simpl; [reflexivity|]. destruct (Nat.eqb t k); [discriminate|]. intros H. now rewrite IH. Qed.
Lemma with_tasks_same s : with_tasks (tasks s) s = s.
Proof. now destruct s. Qed.

Lemma unknown_response local s t v resp rest : get Nat.eqb t (tasks s) = None -> get scalar_eqb v (queues s) <> None ->
  (forall r, In r (queue s v) -> ev_id (heap s r) = rs_id resp -> SInt (ev_mod (heap s r)) <> rs_mod resp) ->
  step local s (LCreated t v (resp :: rest)) =
    Some (s, [EFail t v (if in_dec scalar_eq_dec (rs_id resp) (match get scalar_eqb v (completed s) with Some l => l | None => [] end) then TypeError else InvalidIdError)]).
Proof.
  intros T Q U. cbn [step]. unfold mem. rewrite T. cbn [created_event]. destruct (get scalar_eqb v (queues s)) as [q|] eqn:QQ; [|congruence].
  rewrite (queue_get _ _ _ QQ) in U. apply find_response_none in U. rewrite U. rewrite (del_absent _ _ T), with_tasks_same.
  set (l := match get scalar_eqb v (completed s) with Some l => l | None => [] end).
  destruct (existsb (scalar_eqb (rs_id resp)) l) eqn:E; destruct (in_dec scalar_eq_dec (rs_id resp) l) as [I|I]; try reflexivity.
  - exfalso. apply I. apply existsb_exists in E as (x & J & K). apply scalar_eqb_eq in K. congruence.
  - exfalso. assert (existsb (scalar_eqb (rs_id resp)) l = true) by (apply existsb_exists; exists (rs_id resp); split; [assumption|now apply scalar_eqb_eq]). congruence.
Qed.

Lemma find_response_first h q1 r q2 resp : ev_id (h r) = rs_id resp -> SInt (ev_mod (h r)) = rs_mod resp ->
  (forall x, In x q1 -> ev_id (h x) <> rs_id resp \/ SInt (ev_mod (h x)) <> rs_mod resp) -> find_response h (q1 ++ r :: q2) resp = Some r.
Proof.
  intros E M. unfold find_response. induction q1 as [|x q1 IH]; intros N; simpl.
  - now rewrite (proj2 (scalar_eqb_eq _ _) E), (proj2 (scalar_eqb_eq _ _) M).
  - assert (K : scalar_eqb (ev_id (h x)) (rs_id resp) && scalar_eqb (SInt (ev_mod (h x))) (rs_mod resp) = false).
    { destruct (N x) as [K|K]; [now left|apply scalar_eqb_neq in K; now rewrite K|apply scalar_eqb_neq in K; rewrite K; apply andb_false_r]. }
    rewrite K. apply IH. intros y I. apply N. now right.
Qed.

Lemma confirm local s t v resp q1 r q2 s' es : get scalar_eqb v (queues s) = Some (q1 ++ r :: q2)%list ->
  ev_id (heap s r) = rs_id resp -> (forall x, In x q1 -> ev_id (heap s x) <> rs_id resp) -> SInt (ev_mod (heap s r)) = rs_mod resp ->
  ev_status (heap s r) = Cancelled -> step local s (LCreated t v [resp]) = Some (s', es) -> queue s' v = (q1 ++ q2)%list.
Proof.
  intros Q E N M C. cbn [step]. destruct (mem _ _ _); [discriminate|]. intros H. injection H as H. cbn [created_event] in H.
  rewrite Q in H. rewrite (find_response_first _ _ _ _ _ E M) in H by (intros x I; left; auto).
  apply status_eqb_eq in C. rewrite C in H. rewrite (pop_id_split _ _ _ _ _ E N) in H.
  set (s1 := set_queue v (q1 ++ q2)%list s) in H. assert (Q1 : queue s1 v = (q1 ++ q2)%list) by apply queue_set_same.
  destruct (get scalar_eqb (rs_id resp) (callbacks s1)) as [[n|n]|].
  - apply pair_equal_spec in H as [<- _]. exact Q1.
  - destruct (existsb (Nat.eqb n) _).
    + apply pair_equal_spec in H as [<- _]. exact Q1.
    + apply pair_equal_spec in H as [<- _]. exact Q1.
  - apply pair_equal_spec in H as [<- _]. exact Q1.
Qed.

Lemma invoked local s t v resp rest r q : get Nat.eqb t (tasks s) = None -> get scalar_eqb v (queues s) = Some q -> In r q ->
  ev_id (heap s r) = rs_id resp -> SInt (ev_mod (heap s r)) = rs_mod resp ->
  exists s' es, step local s (LCreated t v (resp :: rest)) = Some (s', es) /\
    (forall n, get scalar_eqb (rs_id resp) (callbacks s) = Some (CFun n) -> es = [ECall n v (rs_id resp) (rs_opt resp)] /\ get Nat.eqb t (tasks s') = Some (TCreated v rest)) /\
    (forall f, get scalar_eqb (rs_id resp) (callbacks s) = Some (CFut f) -> ~ In f (done s) -> exists es', es = EResult f v (rs_id resp) (rs_opt resp) :: es').
Proof.
  intros T Q I E M. cbn [step]. unfold mem. rewrite T. cbn [created_event]. rewrite Q.
  destruct (find_response (heap s) q resp) as [f|] eqn:F.
  2:{ exfalso. rewrite find_response_none in F. now apply (F r). }
  change (if status_eqb (ev_status (heap s f)) Cancelled then set_queue v (pop_id (heap s) (rs_id resp) q) s else s) with (after_response s v resp q f).
  pose proof (after_frame s v resp q f) as AF. cbv zeta in AF. destruct AF as (_ & _ & _ & _ & A5 & _ & A7 & A8).
  set (s1 := after_response s v resp q f) in *. clearbody s1. rewrite A5.
  destruct (get scalar_eqb (rs_id resp) (callbacks s)) as [[n|n]|] eqn:C.
  - eexists _, _. split; [reflexivity|]. split; [|discriminate]. intros m K. injection K as <-. split; [reflexivity|]. simpl. now rewrite (get_set_same _ Nat.eqb_eq).
  - cbn [done with_callbacks]. rewrite A7. destruct (existsb (Nat.eqb n) (done s)) eqn:D.
    + destruct (created_event t v rest _) as [s2 es2]. exists s2, es2. split; [reflexivity|]. split; [discriminate|].
      intros f' K ND. injection K as <-. exfalso. apply ND. apply existsb_exists in D as (x & J & K). apply Nat.eqb_eq in K. congruence.
    + destruct (created_event t v rest _) as [s2 es2]. eexists _, _. split; [reflexivity|]. split; [discriminate|]. intros f' K _. injection K as <-. eauto.
  - destruct (created_event t v rest s1) as [s2 es2]. exists s2, es2. split; [reflexivity|]. split; discriminate.
Qed.

Lemma cancel_spec v id s q1 r q2 : queue s v = (q1 ++ r :: q2)%list -> ev_id (heap s r) = id -> (forall x, In x q1 -> ev_id (heap s x) <> id) ->
  cancel_event v id s = with_updated (set scalar_eqb v true (updated s))
    (with_heap (upd (heap s) r (increment_event_modification_number (set_status Cancelled (heap s r)))) s).
Proof.
  intros Q E N. destruct (cancel_cases v id s) as [[F _]|(r' & F & ->)].
  - exfalso. rewrite find_id_none in F. apply (F r); [rewrite Q; apply in_app_iff; right; now left|assumption].
  - replace r' with r; [reflexivity|].
    assert (F' : find_id (heap s) (queue s v) id = Some r).
    { rewrite Q. unfold find_id. clear Q F. induction q1 as [|x q1 IH]; simpl; [now rewrite (proj2 (scalar_eqb_eq _ _) E)|].
      assert (K : scalar_eqb (ev_id (heap s x)) id = false) by (apply scalar_eqb_neq, N; now left). rewrite K. apply IH. intros y I. apply N. now right. }
    congruence.
Qed.
