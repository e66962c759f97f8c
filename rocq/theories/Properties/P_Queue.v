(** C30-C37: histories of the VTN's event queues. *)
From Coq Require Import ZArith String List Bool Lia Sorting.Permutation.
From Verif.Base Require Import Result Dict PyStr ListExtra.
From Verif.Model Require Import Objects EventTime EventService.
From Verif.Spec Require Import EventSpec QueueSpec.
From Verif.Proofs Require Import EventTimeProofs QueueProofs QueueHistory QueueLaws QueueAnswers.
Import ListNotations.
Local Open Scope string_scope.
Local Open Scope Z_scope.

(** ** Material for the examples *)
Definition ex_event (id : string) (start dur : Z) : event :=
  mk_ev (mk_ed (SStr id) 0 "context" Far 0 0 (Some 0) false None)
    [mk_sg [mk_iv (Aware start) dur (SInt 1) None] "SIMPLE" "level" (SStr "s1") None None None None]
    (Some [[("ven_id", SStr "ven1")]]) None (mk_ap (Aware start) dur None None None) "always".
Definition ex_zero : state := mk_st (fun _ => ex_event "none" 0 0) 0 [] [] [] [] [] [] [].
Definition ex_run (ls : list label) : option (state * list effect) := run (fun w => w) ex_zero ls.
Definition ex_state (ls : list label) : state := match ex_run ls with Some (s, _) => s | None => ex_zero end.
Definition ex_effects (ls : list label) : list effect := match ex_run ls with Some (_, es) => es | None => [] end.
Definition at_time (t : Z) : nat -> Z * Z := fun _ => (t, t).
Definition v1 := SStr "ven1".
Definition v2 := SStr "ven2".
Lemma ex_initial : initial ex_zero.
Proof. repeat split. Qed.

Fixpoint holds (local : Z -> Z) (P : state -> label -> Prop) (s : state) (ls : list label) : Prop :=
  match ls with
  | [] => True
  | l :: rest => P s l /\ match step local s l with Some (s', _) => holds local P s' rest | None => False end
  end.
Lemma run_runs local (P : state -> label -> Prop) ls : forall s s' es, run local s ls = Some (s', es) -> holds local P s ls -> runs local P s ls es s'.
Proof.
  induction ls as [|l ls IH]; intros s s' es H HP; cbn [run holds] in H, HP.
  - injection H as <- <-. constructor.
  - destruct HP as [P1 P2]. destruct (step local s l) as [[s1 es1]|] eqn:E; [|contradiction].
    destruct (run local s1 ls) as [[s2 es2]|] eqn:R; [|discriminate]. injection H as <- <-.
    change (l :: ls) with ([l] ++ ls)%list. eapply runs_app; [eapply runs_one; eassumption|]. now apply IH.
Qed.
Lemma holds_any local ls : forall s, run local s ls <> None -> holds local any s ls.
Proof.
  induction ls as [|l ls IH]; intros s H; cbn [run holds] in *; [exact I|]. split; [exact I|].
  destruct (step local s l) as [[s1 es1]|]; [|congruence]. apply IH. destruct (run local s1 ls); congruence.
Qed.
Lemma ex_runs ls : ex_run ls <> None -> runs (fun w => w) any ex_zero ls (ex_effects ls) (ex_state ls).
Proof.
  intros H. unfold ex_effects, ex_state. destruct (ex_run ls) as [[s es]|] eqn:E; [|congruence].
  apply run_runs; [exact E|]. apply holds_any. unfold ex_run in E. congruence.
Qed.

Lemma ex_runs_in (P : state -> label -> Prop) ls : ex_run ls <> None -> holds (fun w => w) P ex_zero ls ->
  runs (fun w => w) P ex_zero ls (ex_effects ls) (ex_state ls).
Proof.
  intros H HP. unfold ex_effects, ex_state. destruct (ex_run ls) as [[s es]|] eqn:E; [|congruence]. now apply run_runs.
Qed.

(** ** C30 *)
Theorem C30_only_added : forall local P s0 ls es s t v evs r e, initial s0 -> runs local P s0 ls es s ->
  In (ESent t v evs) es -> In (r, e) evs -> added local P s0 ls v r e.
Proof. intros. eapply sent_added; eassumption. Qed.

(** The full second half does not hold: the same event object may have been
    added for two VENs, and then belongs to both. *)
Definition C30_full : Prop := forall local s0 ls es s l s' es' w, initial s0 -> runs local any s0 ls es s ->
  step local s l = Some (s', es') -> ~ about s l w -> queued s' w = queued s w.

Definition C30_shared : list label := [LAdd v1 (New (ex_event "e1" 100 50)) None true None; LAdd v2 (Same 0) None true None].
Theorem C30_isolation_refuted : ~ C30_full.
Proof.
  intros F. specialize (F (fun w => w) ex_zero C30_shared (ex_effects C30_shared) (ex_state C30_shared) (LCancel v1 (SStr "e1"))
    (cancel_event v1 (SStr "e1") (ex_state C30_shared)) [] v2 ex_initial).
  specialize (F ltac:(apply ex_runs; vm_compute; discriminate) eq_refl ltac:(cbv; discriminate)).
  vm_compute in F. discriminate.
Qed.

(** It holds when every event object is added once, and what a VEN's queue
    refers to, its flag and its completed events are never touched. *)
Theorem C30_isolation_partial :
  (forall local s0 ls es s l s' es' w, initial s0 -> runs local no_sharing s0 ls es s -> no_sharing s l ->
     step local s l = Some (s', es') -> ~ about s l w -> queued s' w = queued s w) /\
  (forall local s l s' es' w, step local s l = Some (s', es') -> ~ about s l w ->
     queue s' w = queue s w /\ get scalar_eqb w (updated s') = get scalar_eqb w (updated s) /\
     get scalar_eqb w (completed s') = get scalar_eqb w (completed s)).
Proof.
  split.
  - intros. eapply isolation; eassumption.
  - intros local s l s' es' w ST N. destruct (step_other _ _ _ _ _ w ST N) as (Q & U & C & _). split; [now apply queue_ext|]. auto.
Qed.

Definition C30_history : list label :=
  [LAdd v1 (New (ex_event "e1" 100 50)) None true None; LAdd v2 (New (ex_event "e2" 200 50)) None true None;
   LCancel v1 (SStr "e1"); LRequest 0 v1 (at_time 10); LRequest 1 v2 (at_time 10)].
Example C30_example : initial ex_zero /\ runs (fun w => w) any ex_zero C30_history (ex_effects C30_history) (ex_state C30_history) /\
  map (fun e => match e with ESent t v evs => (t, v, map (fun p => (fst p, ev_id (snd p), ev_status (snd p))) evs) | _ => (9%nat, SNone, []) end) (ex_effects C30_history) =
  [(0%nat, v1, [(0%nat, SStr "e1", Cancelled)]); (1%nat, v2, [(1%nat, SStr "e2", Far)])].
Proof. split; [apply ex_initial|]. split; [apply ex_runs; vm_compute; discriminate|reflexivity]. Qed.

(** ** C31 *)

(** An event leaves its VEN's queue only when it is found completed by a
    request of that VEN, or cancelled and answered by that VEN with its current
    modification number.  The history never queues two events with the same id
    for one VEN. *)
Theorem C31_stays_queued : forall local s0 ls es s l s' es' v r, initial s0 -> runs local distinct_ids s0 ls es s ->
  step local s l = Some (s', es') -> In r (queue s v) -> ~ In r (queue s' v) ->
  ((exists t clock, l = LPoll t v clock \/ l = LRequest t v clock) /\ ev_status (heap s' r) = Completed) \/
  (exists rs resp, answers s l v rs /\ In resp rs /\ rs_id resp = ev_id (heap s r) /\ rs_mod resp = SInt (ev_mod (heap s r)) /\
     ev_status (heap s r) = Cancelled).
Proof. exact leaves. Qed.

(** Without that assumption: the answered event is a cancelled one with the
    same id. *)
Theorem C31_stays_queued_same_ids : forall local s l s' es' v r,
  step local s l = Some (s', es') -> In r (queue s v) -> ~ In r (queue s' v) ->
  ((exists t clock, l = LPoll t v clock \/ l = LRequest t v clock) /\ ev_status (heap s' r) = Completed) \/
  (exists rs resp f, answers s l v rs /\ In resp rs /\ In f (queue s v) /\ rs_id resp = ev_id (heap s r) /\
     ev_id (heap s f) = rs_id resp /\ rs_mod resp = SInt (ev_mod (heap s f)) /\ ev_status (heap s f) = Cancelled).
Proof.
  intros local s l s' es' v r ST I N. destruct (step_queue _ _ _ _ _ ST v) as [E|[(src & cb & ok & dcb & -> & -> & E)|[(Q & _ & K)|(rs & C & _ & _ & K)]]].
  - rewrite E in N. contradiction.
  - exfalso. apply N. rewrite E. apply in_app_iff. now left.
  - left. split; [assumption|]. destruct (K r I); [contradiction|assumption].
  - right. destruct (K r I N) as (resp & f & IR & E1 & IF & E2 & E3 & E4). exists rs, resp, f. repeat split; auto.
Qed.

(** A successful add queues the event; every request made while it is queued
    returns it, unless it has left the queue when the answer is sent. *)
Theorem C31_added_is_queued : forall local s v src cb ok dcb s', step local s (LAdd v src cb ok dcb) = Some (s', []) ->
  queue s' v = (queue s v ++ [object_of s src])%list.
Proof.
  intros local s v src cb ok dcb s' ST. apply add_step in ST as (A & _).
  apply add_cases in A as (_ & _ & _ & _ & [(x & K & _)|(e' & _ & _ & _ & _ & Q & _)]); [discriminate|assumption].
Qed.

Theorem C31_requests_return_it : forall local P s0 ls es s t v clock l ls1 es1 s2 l2 s3 es3 rest evs r,
  initial s0 -> runs local P s0 ls es s -> In r (queue s v) -> (l = LPoll t v clock \/ l = LRequest t v clock) ->
  runs local P s ls1 es1 s2 -> step local s2 l2 = Some (s3, es3) -> (ls1 ++ [l2] = l :: rest)%list -> Forall (fun l => ~ starts l t) rest ->
  In (ESent t v evs) es3 -> In r (queue s3 v) -> In (r, heap s3 r) evs.
Proof. exact request_returns. Qed.

Example C31_example :
  let ls := [LAdd v1 (New (ex_event "e1" 100 50)) None true None; LAdd v1 (New (ex_event "e2" 200 50)) None true None; LRequest 0 v1 (at_time 120);
             LCancel v1 (SStr "e2"); LCreated 1 v1 [mk_resp (SStr "e2") (SInt 0) (SStr "optIn")]; LRequest 2 v1 (at_time 130);
             LCreated 3 v1 [mk_resp (SStr "e2") (SInt 1) (SStr "optIn")]; LRequest 4 v1 (at_time 150)] in
  map (fun n => queue (ex_state (firstn n ls)) v1) [2; 3; 4; 5; 6; 7; 8]%nat = [[0; 1]; [0; 1]; [0; 1]; [0; 1]; [0; 1]; [0]; []]%nat /\
  runs (fun w => w) any ex_zero ls (ex_effects ls) (ex_state ls).
Proof. split; [reflexivity|apply ex_runs; vm_compute; discriminate]. Qed.

(** ** C32 *)

(** The full property: also when another poll of the VEN was waiting. *)
Definition C32_full : Prop := forall local s0 ls es s u s1 es1 v r ls' es' s2 l2 s3 es3,
  initial s0 -> runs local any s0 ls es s -> step local s u = Some (s1, es1) -> update s u es1 v r ->
  runs local (fun s l => In r (queue s v) /\ ~ poll_done local s l v) s1 ls' es' s2 ->
  step local s2 l2 = Some (s3, es3) -> In r (queue s2 v) -> poll_done local s2 l2 v ->
  exists t evs, es3 = [ESent t v evs] /\ (In r (queue s3 v) -> In (r, heap s3 r) evs).

(** The race: a poll is waiting for the delivery callback of an event when a
    third event is added; its answer does not contain that event, and then the
    update flag is cleared: the following poll is answered with nothing. *)
Definition C32_race : list label :=
  [LAdd v1 (New (ex_event "e1" 100 50)) None true (Some 7%nat); LAdd v1 (New (ex_event "e2" 200 50)) None true None; LPoll 0 v1 (at_time 10)].
Definition C32_late : label := LAdd v1 (New (ex_event "e3" 300 50)) None true None.
Definition C32_end : list label := (C32_race ++ [C32_late])%list.
Definition C32_sent : list (nat * event) :=
  match step (fun w => w) (ex_state C32_end) (LResume 0 (Ok tt)) with Some (_, [ESent _ _ evs]) => evs | _ => [] end.
Theorem C32_update_refuted : ~ C32_full.
Proof.
  intros F.
  destruct (step (fun w => w) (ex_state C32_end) (LResume 0 (Ok tt))) as [[s3 es3]|] eqn:ST; [|vm_compute in ST; discriminate].
  specialize (F (fun w => w) ex_zero C32_race (ex_effects C32_race) (ex_state C32_race) C32_late (ex_state C32_end) [] v1 2%nat
    [] [] (ex_state C32_end) (LResume 0 (Ok tt)) s3 es3 ex_initial).
  specialize (F ltac:(apply ex_runs; vm_compute; discriminate)).
  specialize (F ltac:(vm_compute; reflexivity)).
  specialize (F ltac:(split; [reflexivity|left; repeat eexists])).
  specialize (F ltac:(constructor) ST ltac:(vm_compute; auto)).
  assert (E : es3 = [ESent 0%nat v1 C32_sent] /\ queue s3 v1 = [0; 1; 2]%nat).
  { unfold C32_sent. rewrite ST. vm_compute in ST. injection ST as <- <-. split; reflexivity. }
  destruct E as [E Q].
  specialize (F ltac:(exists 0%nat, s3, es3; split; [exact ST|]; split; [right; exists (Snap [0; 1]%nat), 0%nat; split; reflexivity|left; exists C32_sent; rewrite E; now left])).
  assert (M : map fst C32_sent = [0; 1]%nat) by (vm_compute; reflexivity).
  destruct F as (t & evs & E' & K). rewrite E in E'. revert E' M. generalize C32_sent. intros sent E' M. injection E' as _ <-.
  specialize (K ltac:(rewrite Q; simpl; auto)). apply (in_map fst) in K. rewrite M in K. simpl in K. intuition discriminate.
Qed.

Theorem C32_update_partial : forall local P s0 ls es s u s1 es1 v r ls' es' s2 l2 s3 es3,
  initial s0 -> runs local P s0 ls es s -> step local s u = Some (s1, es1) -> update s u es1 v r -> ~ poll_waiting s v ->
  runs local (fun s l => In r (queue s v) /\ ~ poll_done local s l v) s1 ls' es' s2 ->
  step local s2 l2 = Some (s3, es3) -> In r (queue s2 v) -> poll_done local s2 l2 v ->
  exists t evs, es3 = [ESent t v evs] /\ (In r (queue s3 v) -> In (r, heap s3 r) evs).
Proof. exact update_next_poll. Qed.

Theorem C32_then_quiet : forall local s l s1 es1 v ls' es' s2 t clock s3 es3, step local s l = Some (s1, es1) -> poll_done local s l v ->
  runs local (no_update v) s1 ls' es' s2 -> step local s2 (LPoll t v clock) = Some (s3, es3) -> s3 = s2 /\ es3 = [EEmpty t v].
Proof. intros local s l s1 es1 v ls' es' s2 t clock s3 es3 ST PD R ST3. exact (quiet_poll local s l s1 es1 v ls' es' s2 t clock ST PD R s3 es3 ST3). Qed.

Definition C32_history : list label :=
  [LAdd v1 (New (ex_event "e1" 100 50)) None true (Some 7%nat); LPoll 0 v1 (at_time 10); LResume 0 (Ok tt); LPoll 1 v1 (at_time 11);
   LCancel v1 (SStr "e1"); LRequest 2 v1 (at_time 12); LResume 2 (Ok tt); LPoll 3 v1 (at_time 13); LResume 3 (Ok tt); LPoll 4 v1 (at_time 14)].
Example C32_example :
  map (fun e => match e with ESent t _ evs => (t, map fst evs) | EEmpty t _ => (t, []) | EDelivery n _ => (n, [99%nat]) | _ => (50%nat, []) end) (ex_effects C32_history) =
  [(7, [99]); (0, [0]); (1, []); (7, [99]); (2, [0]); (7, [99]); (3, [0]); (4, [])]%nat /\
  ~ poll_waiting (ex_state (firstn 4 C32_history)) v1 /\ poll_waiting (ex_state (firstn 2 C32_history)) v1.
Proof.
  split; [reflexivity|]. split; [intros (t & src & i & H); vm_compute in H; discriminate|exists 0%nat, Live, 0%nat; reflexivity].
Qed.

(** ** C33 *)
Definition C33_full_first : Prop := forall local s0 ls es s l s1 es1 t v clock r evs, initial s0 -> runs local no_sharing s0 ls es s ->
  (l = LPoll t v clock \/ l = LRequest t v clock) -> step local s l = Some (s1, es1) ->
  In r (queue s v) -> ev_status (heap s1 r) = Completed -> In (ESent t v evs) es1 -> In (r, heap s1 r) evs.
Definition C33_full_once : Prop := forall local s0 ls es s a b c t1 t2 v evs1 evs2 r e1 e2, initial s0 -> runs local no_sharing s0 ls es s ->
  es = (a ++ ESent t1 v evs1 :: b ++ ESent t2 v evs2 :: c)%list -> In (r, e1) evs1 -> In (r, e2) evs2 -> ev_status e1 <> Completed.

(** A single queued event: the list that is sent is the queue itself, from
    which the event has just been removed. *)
Theorem C33_single_event_refuted : ~ C33_full_first.
Proof.
  intros F.
  set (ls := [LAdd v1 (New (ex_event "e1" 100 50)) None true None]).
  destruct (step (fun w => w) (ex_state ls) (LRequest 0 v1 (at_time 200))) as [[s1 es1]|] eqn:ST; [|vm_compute in ST; discriminate].
  assert (E : es1 = [ESent 0%nat v1 []] /\ ev_status (heap s1 0%nat) = Completed) by (vm_compute in ST; injection ST as <- <-; split; reflexivity).
  destruct E as [E C].
  destruct (F (fun w => w) ex_zero ls (ex_effects ls) (ex_state ls) (LRequest 0 v1 (at_time 200)) s1 es1 0%nat v1 (at_time 200) 0%nat []); auto.
  - exact ex_initial.
  - apply ex_runs_in; [vm_compute; discriminate|]. vm_compute. auto.
  - vm_compute. auto.
  - rewrite E. now left.
Qed.

(** Two requests of the same VEN that overlap: both send the event as
    completed. *)
Definition C33_overlap : list label :=
  [LAdd v1 (New (ex_event "e1" 100 50)) None true None; LAdd v1 (New (ex_event "e2" 300 50)) None true (Some 7%nat);
   LRequest 0 v1 (at_time 120); LRequest 1 v1 (at_time 200); LResume 1 (Ok tt); LResume 0 (Ok tt)].
Theorem C33_overlap_refuted : ~ C33_full_once.
Proof.
  intros F.
  set (e1 := heap (ex_state C33_overlap) 0%nat). set (e2 := heap (ex_state C33_overlap) 1%nat).
  apply (F (fun w => w) ex_zero C33_overlap (ex_effects C33_overlap) (ex_state C33_overlap) [EDelivery 7 (SStr "e2"); EDelivery 7 (SStr "e2")] [] []
    1%nat 0%nat v1 [(0%nat, e1); (1%nat, e2)] [(0%nat, e1); (1%nat, e2)] 0%nat e1 e1 ex_initial).
  - apply ex_runs_in; [vm_compute; discriminate|]. vm_compute. auto 10.
  - vm_compute. reflexivity.
  - now left.
  - now left.
  - reflexivity.
Qed.

(** With at least two queued events, and every event object added once: the
    answer to the request that finds the event completed contains it as
    completed; then it is in no queue, and no answer to a request that starts
    afterwards contains it. *)
Theorem C33_completed_once_partial :
  (forall local s0 ls es s l s1 es1 t v clock r ls' es' s2 evs, initial s0 -> runs local no_sharing s0 ls es s ->
     (l = LPoll t v clock \/ l = LRequest t v clock) -> step local s l = Some (s1, es1) ->
     In r (queue s v) -> (2 <= length (queue s v))%nat -> ev_status (heap s1 r) = Completed ->
     runs local no_sharing s1 ls' es' s2 -> Forall (fun l => ~ starts l t) ls' -> In (ESent t v evs) (es1 ++ es') ->
     exists e, In (r, e) evs /\ ev_status e = Completed) /\
  (forall local s0 ls es s l s1 es1 t v clock r ls' es' s2 t' v' evs, initial s0 -> runs local no_sharing s0 ls es s ->
     (l = LPoll t v clock \/ l = LRequest t v clock) -> step local s l = Some (s1, es1) ->
     (forall x, ~ In (EFail t v x) es1) -> ~ In (EEmpty t v) es1 ->
     In r (queue s v) -> ev_status (heap s1 r) = Completed ->
     runs local no_sharing s1 ls' es' s2 -> get Nat.eqb t' (tasks s1) = None -> In (ESent t' v' evs) es' -> ~ In r (map fst evs)).
Proof.
  split.
  - intros local s0 ls es s l s1 es1 t v clock r ls' es' s2 evs I0 H L ST I LEN C R A IN.
    exists (heap s1 r). split; [|assumption]. exact (completed_sent _ _ _ _ _ _ _ _ _ _ _ _ _ _ _ _ I0 H L ST I LEN C R A IN).
  - intros local s0 ls es s l s1 es1 t v clock r ls' es' s2 t' v' evs I0 H L ST NF NE I C R G IN.
    destruct (request_dropped _ _ _ _ _ _ _ _ _ _ _ _ I0 H L ST NF NE I C) as [B NQ].
    assert (ND : NoDup (keys (tasks s))) by (eapply runs_nodup_tasks; [exact H|now apply initial_nodup]).
    eapply completed_never_again; [exact (proj1 (step_tasks _ _ _ _ _ ST ND))|exact B|exact NQ|exact R|exact G|exact IN].
Qed.

Example C33_example :
  let ls := [LAdd v1 (New (ex_event "e1" 100 50)) None true None; LAdd v1 (New (ex_event "e2" 300 50)) None true None;
   LRequest 0 v1 (at_time 200); LRequest 1 v1 (at_time 201)] in
  map (fun e => match e with ESent t _ evs => (t, map (fun p => (fst p, ev_status (snd p))) evs) | _ => (50%nat, []) end) (ex_effects ls) =
  [(0%nat, [(0%nat, Completed); (1%nat, Far)]); (1%nat, [(1%nat, Far)])].
Proof. reflexivity. Qed.

(** ** C34 *)

(** Not more often than it was given with an event. *)
Theorem C34_at_most_once : forall local P s0 ls es s c, initial s0 -> runs local P s0 ls es s ->
  (count (invokes c) es <= count (adds_callback c) ls)%nat.
Proof. intros local P s0 ls es s c I0 H. pose proof (calls_at_most local P s0 ls es s c I0 H). lia. Qed.

(** A future gets at most one result, and none when it is done already. *)
Theorem C34_future_once : forall local P s ls es s' f, runs local P s ls es s' ->
  (count (invokes (CFut f)) es <= 1)%nat /\ (In f (done s) -> count (invokes (CFut f)) es = 0%nat) /\
  ((0 < count (invokes (CFut f)) es)%nat -> In f (done s')).
Proof.
  intros local P s ls es s' f H. pose proof (future_once local P s ls es s' f H) as K. split; [|split].
  - destruct (is_done f s'); simpl in K; lia.
  - intros I. apply is_done_In in I. rewrite I in K. destruct (is_done f s'); simpl in K; lia.
  - intros L. apply is_done_In. destruct (is_done f s'); simpl in K; [reflexivity|lia].
Qed.

(** Only in answer to a response by the VEN to an event queued for it, with
    that event's current modification number; the callback was given with an
    event of that id. *)
Theorem C34_only_when_answered : forall local P s0 ls es s l s' es', initial s0 -> runs local P s0 ls es s -> step local s l = Some (s', es') ->
  forall c v id opt, In (match c with CFun n => ECall n v id opt | CFut f => EResult f v id opt end) es' ->
  (exists rs resp r, answers s l v rs /\ In resp rs /\ rs_id resp = id /\ rs_opt resp = opt /\ In r (queue s v) /\
     ev_id (heap s r) = id /\ rs_mod resp = SInt (ev_mod (heap s r))) /\
  (exists ls1 es1 s1 w src ok dcb ls2, ls = (ls1 ++ LAdd w src (Some c) ok dcb :: ls2)%list /\ runs local P s0 ls1 es1 s1 /\ id_of s1 src = id) /\
  (forall f, c = CFut f -> ~ In f (done s)).
Proof.
  intros local P s0 ls es s l s' es' I0 H ST c v id opt IN.
  destruct (callbacks_given _ _ _ _ _ _ I0 H) as [ND G].
  assert (POS : (0 < count (invokes c) es')%nat).
  { unfold count. apply in_split in IN as (a & b & ->). rewrite filter_app, app_length. simpl. destruct c; simpl; rewrite Nat.eqb_refl; simpl; lia. }
  destruct (step_calls _ _ _ _ _ c ST) as [(A & _)|[(f & -> & -> & _)|[(w & src & cb & ok & dcb & -> & -> & _)|(tid & w & rs & AN & CE)]]].
  - lia.
  - contradiction.
  - contradiction.
  - destruct (created_calls _ _ _ _ _ _ CE ND) as (_ & _ & _ & C1 & C2). destruct c as [n|f].
    + destruct (C1 _ _ _ _ IN) as (-> & K & resp & r & K1 & K2 & K3 & K4 & K5 & K6). split; [|split].
      * exists rs, resp, r. repeat split; auto.
      * now apply G.
      * discriminate.
    + destruct (C2 _ _ _ _ IN) as (-> & K & ND' & _ & resp & r & K1 & K2 & K3 & K4 & K5 & K6). split; [|split].
      * exists rs, resp, r. repeat split; auto.
      * now apply G.
      * intros f' E. now injection E as <-.
Qed.

(** Conversely, such a response does invoke a registered callback. *)
Theorem C34_invoked : forall local s t v resp rest r q, get Nat.eqb t (tasks s) = None -> get scalar_eqb v (queues s) = Some q -> In r q ->
  ev_id (heap s r) = rs_id resp -> SInt (ev_mod (heap s r)) = rs_mod resp ->
  exists s' es, step local s (LCreated t v (resp :: rest)) = Some (s', es) /\
    (forall n, get scalar_eqb (rs_id resp) (callbacks s) = Some (CFun n) -> es = [ECall n v (rs_id resp) (rs_opt resp)] /\ get Nat.eqb t (tasks s') = Some (TCreated v rest)) /\
    (forall f, get scalar_eqb (rs_id resp) (callbacks s) = Some (CFut f) -> ~ In f (done s) -> exists es', es = EResult f v (rs_id resp) (rs_opt resp) :: es').
Proof. exact invoked. Qed.

(** What does not hold: that the callback answers for the VEN it was given
    for.  Callbacks are kept by event id alone. *)
Definition C34_full : Prop := forall local s0 ls es s l s' es', initial s0 -> runs local any s0 ls es s -> step local s l = Some (s', es') ->
  forall c v id opt, In (match c with CFun n => ECall n v id opt | CFut f => EResult f v id opt end) es' ->
  exists ls1 src ok dcb ls2, ls = (ls1 ++ LAdd v src (Some c) ok dcb :: ls2)%list.
Definition C34_same_id : list label :=
  [LAdd v1 (New (ex_event "e1" 100 50)) (Some (CFun 5)) true None; LAdd v2 (New (ex_event "e1" 100 50)) None true None].
Theorem C34_other_ven_refuted : ~ C34_full.
Proof.
  intros F. set (l := LCreated 0 v2 [mk_resp (SStr "e1") (SInt 0) (SStr "optIn")]).
  destruct (step (fun w => w) (ex_state C34_same_id) l) as [[s' es']|] eqn:ST; [|vm_compute in ST; discriminate].
  assert (E : es' = [ECall 5 v2 (SStr "e1") (SStr "optIn")]) by (vm_compute in ST; injection ST as _ <-; reflexivity).
  destruct (F (fun w => w) ex_zero C34_same_id (ex_effects C34_same_id) (ex_state C34_same_id) l s' es' ex_initial
     ltac:(apply ex_runs; vm_compute; discriminate) ST (CFun 5) v2 (SStr "e1") (SStr "optIn") ltac:(rewrite E; now left)) as (ls1 & src & ok & dcb & ls2 & K).
  unfold C34_same_id in K. destruct ls1 as [|a [|b [|c ls1]]]; discriminate.
Qed.

Example C34_example :
  let ls := [LAdd v1 (New (ex_event "e1" 100 50)) (Some (CFun 5)) true None; LAdd v1 (New (ex_event "e2" 100 50)) (Some (CFut 6)) true None;
             LCreated 0 v1 [mk_resp (SStr "e1") (SInt 0) (SStr "optIn"); mk_resp (SStr "e2") (SInt 0) (SStr "optOut")]; LResume 0 (Ok tt);
             LCreated 0 v1 [mk_resp (SStr "e1") (SInt 0) (SStr "optOut"); mk_resp (SStr "e2") (SInt 0) (SStr "optIn")]] in
  ex_effects ls = [ECall 5 v1 (SStr "e1") (SStr "optIn"); EResult 6 v1 (SStr "e2") (SStr "optOut"); EAck 0 v1; EAck 0 v1] /\
  runs (fun w => w) any ex_zero ls (ex_effects ls) (ex_state ls).
Proof. split; [reflexivity|apply ex_runs; vm_compute; discriminate]. Qed.

(** ** C35 *)

(** The response names no event of the VEN's queue by id and number. *)
Definition unknown (s : state) (v : scalar) (resp : response) : Prop :=
  forall r, In r (queue s v) -> ~ (ev_id (heap s r) = rs_id resp /\ SInt (ev_mod (heap s r)) = rs_mod resp).
Definition completed_ids (s : state) (v : scalar) : list scalar := match get scalar_eqb v (completed s) with Some l => l | None => [] end.

Definition C35_full_unknown : Prop := forall local s0 ls es s t v resp rest, initial s0 -> runs local any s0 ls es s ->
  get Nat.eqb t (tasks s) = None -> unknown s v resp -> ~ In (rs_id resp) (completed_ids s v) ->
  step local s (LCreated t v (resp :: rest)) = Some (s, [EFail t v InvalidIdError]).
Definition C35_full_completed : Prop := forall local s0 ls es s t v resp, initial s0 -> runs local any s0 ls es s ->
  get Nat.eqb t (tasks s) = None -> unknown s v resp -> In (rs_id resp) (completed_ids s v) ->
  exists s', step local s (LCreated t v [resp]) = Some (s', [EAck t v]).

(** A VEN for which nothing was ever added: KeyError instead of 452. *)
Theorem C35_no_queue_refuted : ~ C35_full_unknown.
Proof.
  intros F. specialize (F (fun w => w) ex_zero [] [] ex_zero 0%nat v1 (mk_resp (SStr "e1") (SInt 0) (SStr "optIn")) [] ex_initial
    ltac:(constructor) eq_refl ltac:(intros r []) ltac:(intros [])).
  vm_compute in F. discriminate.
Qed.
(** A late response to an event that was completed: TypeError. *)
Definition C35_late : list label := [LAdd v1 (New (ex_event "e1" 100 50)) None true None; LRequest 0 v1 (at_time 200)].
Theorem C35_completed_refuted : ~ C35_full_completed.
Proof.
  intros F. destruct (F (fun w => w) ex_zero C35_late (ex_effects C35_late) (ex_state C35_late) 1%nat v1 (mk_resp (SStr "e1") (SInt 0) (SStr "optIn")) ex_initial
    ltac:(apply ex_runs; vm_compute; discriminate) ltac:(vm_compute; reflexivity) ltac:(intros r K; vm_compute in K; contradiction) ltac:(vm_compute; auto)) as (s' & E).
  vm_compute in E. discriminate.
Qed.

(** For a VEN that has a queue: 452 exactly when the event is not among its
    completed ones (then TypeError); nothing changes. *)
Theorem C35_unknown_partial : forall local s t v resp rest, get Nat.eqb t (tasks s) = None -> get scalar_eqb v (queues s) <> None -> unknown s v resp ->
  (~ In (rs_id resp) (completed_ids s v) -> step local s (LCreated t v (resp :: rest)) = Some (s, [EFail t v (ProtocolError 452 "Invalid ID")])) /\
  (In (rs_id resp) (completed_ids s v) -> step local s (LCreated t v (resp :: rest)) = Some (s, [EFail t v TypeError])).
Proof.
  intros local s t v resp rest T Q U.
  assert (U' : forall r, In r (queue s v) -> ev_id (heap s r) = rs_id resp -> SInt (ev_mod (heap s r)) <> rs_mod resp).
  { intros r I E M. apply (U r I). auto. }
  rewrite (unknown_response local s t v resp rest T Q U'). unfold completed_ids.
  destruct (in_dec _ _ _); split; intros K; try contradiction; reflexivity.
Qed.

Example C35_example :
  let s := ex_state [LAdd v1 (New (ex_event "e1" 100 50)) None true None; LAdd v1 (New (ex_event "e2" 300 50)) None true None; LRequest 0 v1 (at_time 200)] in
  let rs := mk_resp (SStr "e2") (SInt 1) (SStr "optIn") in
  get scalar_eqb v1 (queues s) <> None /\ unknown s v1 rs /\ ~ In (rs_id rs) (completed_ids s v1) /\ completed_ids s v1 = [SStr "e1"].
Proof.
  cbv zeta. split; [vm_compute; discriminate|]. split; [|split; [vm_compute; intros [K|[]]; discriminate|reflexivity]].
  intros r I [_ K]. vm_compute in I. destruct I as [<-|[]]. vm_compute in K. discriminate.
Qed.

(** ** C36 *)
Theorem C36_cancel : forall local s v id s' es, step local s (LCancel v id) = Some (s', es) ->
  es = [] /\ (forall w, queue s' w = queue s w) /\
  ((forall r, In r (queue s v) -> ev_id (heap s r) <> id) -> s' = s) /\
  (forall q1 r q2, queue s v = (q1 ++ r :: q2)%list -> ev_id (heap s r) = id -> (forall x, In x q1 -> ev_id (heap s x) <> id) ->
     ev_status (heap s' r) = Cancelled /\ ev_mod (heap s' r) = ev_mod (heap s r) + 1 /\ same_event (heap s r) (heap s' r) /\
     ev_period (heap s' r) = ev_period (heap s r) /\ (forall x, x <> r -> heap s' x = heap s x)).
Proof.
  intros local s v id s' es H. cbn [step] in H. injection H as <- <-. split; [reflexivity|]. split; [|split].
  - intros w. destruct (cancel_cases v id s) as [[_ ->]|(r & _ & ->)]; reflexivity.
  - intros N. destruct (cancel_cases v id s) as [[_ E]|(r & F & _)]; [assumption|]. apply find_id_some in F as (I & E & _). exfalso. now apply (N r).
  - intros q1 r q2 Q E N. rewrite (cancel_spec _ _ _ _ _ _ Q E N). cbn [heap with_updated with_heap]. rewrite upd_same. repeat split.
    intros x NE. now rewrite upd_other.
Qed.

(** From then on it is distributed as cancelled, with at least that number. *)
Theorem C36_distributed_cancelled : forall local P s0 ls es s v id q1 r q2 s1 e1 ls' es' s2 t w evs e,
  initial s0 -> runs local P s0 ls es s -> queue s v = (q1 ++ r :: q2)%list -> ev_id (heap s r) = id -> (forall x, In x q1 -> ev_id (heap s x) <> id) ->
  step local s (LCancel v id) = Some (s1, e1) -> runs local P s1 ls' es' s2 -> In (ESent t w evs) es' -> In (r, e) evs ->
  ev_status e = Cancelled /\ ev_mod (heap s r) + 1 <= ev_mod e.
Proof.
  intros local P s0 ls es s v id q1 r q2 s1 e1 ls' es' s2 t w evs e I0 H Q E N ST R IN I.
  destruct (C36_cancel _ _ _ _ _ _ ST) as (_ & QQ & _ & K). destruct (K _ _ _ Q E N) as (C & M & _ & _ & _).
  assert (B : (r < next s1)%nat).
  { assert (r < next s)%nat by (eapply (pending_added _ _ _ _ _ _ I0 H v r); left; rewrite Q; apply in_app_iff; right; now left). apply step_next in ST. lia. }
  assert (L : later (heap s1 r) e).
  { clear - R IN I B. induction R as [s1|s1 la ea sa l el sb R IH Pl STb]; [contradiction|].
    apply in_app_iff in IN as [IN|IN]; [now apply IH|].
    rewrite (sent_eq _ _ _ _ _ _ _ _ _ _ STb IN I). eapply later_trans; [eapply runs_heap; [exact R|exact B]|].
    eapply step_heap; [exact STb|]. apply runs_next in R. lia. }
  destruct L as (_ & M' & C' & _). split; [auto|lia].
Qed.

(** The VEN's confirmation removes it. *)
Theorem C36_confirmed : forall local s t v resp q1 r q2 s' es, get scalar_eqb v (queues s) = Some (q1 ++ r :: q2)%list ->
  ev_id (heap s r) = rs_id resp -> (forall x, In x q1 -> ev_id (heap s x) <> rs_id resp) -> SInt (ev_mod (heap s r)) = rs_mod resp ->
  ev_status (heap s r) = Cancelled -> step local s (LCreated t v [resp]) = Some (s', es) -> queue s' v = (q1 ++ q2)%list.
Proof. exact confirm. Qed.

Example C36_example :
  let ls := [LAdd v1 (New (ex_event "e0" 100 50)) None true None; LAdd v1 (New (ex_event "e1" 100 50)) None true None; LCancel v1 (SStr "e1");
             LRequest 0 v1 (at_time 10); LCreated 1 v1 [mk_resp (SStr "e1") (SInt 1) (SStr "optIn")]] in
  let s := ex_state (firstn 4 ls) in
  queue s v1 = ([0] ++ 1 :: [])%nat%list /\ ev_id (heap s 1%nat) = SStr "e1" /\ ev_id (heap s 0%nat) <> SStr "e1" /\ ev_mod (heap s 1%nat) = 1 /\
  ev_status (heap s 1%nat) = Cancelled /\ queue (ex_state ls) v1 = [0]%nat.
Proof. cbv zeta. repeat split; try (vm_compute; reflexivity). vm_compute. discriminate. Qed.

(** ** C37 *)
Theorem C37_modification_numbers : forall local P s0 ls es s a b c t1 v1 evs1 t2 v2 evs2 r e1 e2, initial s0 -> runs local P s0 ls es s ->
  es = (a ++ ESent t1 v1 evs1 :: b ++ ESent t2 v2 evs2 :: c)%list -> In (r, e1) evs1 -> In (r, e2) evs2 ->
  ev_mod e1 <= ev_mod e2 /\ (ev_status e1 <> Cancelled -> ev_status e2 = Cancelled -> ev_mod e1 < ev_mod e2) /\
  (ev_status e1 = Cancelled -> ev_status e2 = Cancelled).
Proof.
  intros local P s0 ls es s a b c t1 v1 evs1 t2 v2 evs2 r e1 e2 I0 H E I1 I2.
  destruct (sent_twice _ _ _ _ _ _ _ _ _ _ _ _ _ _ _ _ _ _ I0 H E I1 I2) as (_ & M & C & L). auto.
Qed.

Example C37_example :
  let ls := [LAdd v1 (New (ex_event "e1" 100 50)) None true None; LRequest 0 v1 (at_time 10); LCancel v1 (SStr "e1"); LPoll 1 v1 (at_time 20)] in
  map (fun e => match e with ESent t _ evs => (t, map (fun p => (fst p, ev_mod (snd p), ev_status (snd p))) evs) | _ => (50%nat, []) end) (ex_effects ls) =
  [(0%nat, [(0%nat, 0, Far)]); (1%nat, [(0%nat, 1, Cancelled)])] /\ runs (fun w => w) any ex_zero ls (ex_effects ls) (ex_state ls).
Proof. split; [vm_compute; reflexivity|apply ex_runs; vm_compute; discriminate]. Qed.

Print Assumptions C30_only_added.
Print Assumptions C30_isolation_refuted.
Print Assumptions C30_isolation_partial.
Print Assumptions C31_stays_queued.
Print Assumptions C31_stays_queued_same_ids.
Print Assumptions C31_added_is_queued.
Print Assumptions C31_requests_return_it.
Print Assumptions C32_update_refuted.
Print Assumptions C32_update_partial.
Print Assumptions C32_then_quiet.
Print Assumptions C33_single_event_refuted.
Print Assumptions C33_overlap_refuted.
Print Assumptions C33_completed_once_partial.
Print Assumptions C34_at_most_once.
Print Assumptions C34_future_once.
Print Assumptions C34_only_when_answered.
Print Assumptions C34_invoked.
Print Assumptions C34_other_ven_refuted.
Print Assumptions C35_no_queue_refuted.
Print Assumptions C35_completed_refuted.
Print Assumptions C35_unknown_partial.
Print Assumptions C36_cancel.
Print Assumptions C36_distributed_cancelled.
Print Assumptions C36_confirmed.
Print Assumptions C37_modification_numbers.
