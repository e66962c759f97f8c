(** C28-C29: add_event. *)
From Coq Require Import ZArith String List Bool Lia.
From Verif.Base Require Import Result Dict PyStr ListExtra.
From Verif.Model Require Import Objects EventTime Members EventService Server.
From Verif.Spec Require Import EventSpec QueueSpec AddSpec.
From Verif.Proofs Require Import EventTimeProofs QueueProofs QueueHistory QueueLaws ServerProofs PeriodProofs.
From Verif.Properties Require Import P_Queue.
Import ListNotations.
Local Open Scope string_scope.
Local Open Scope Z_scope.

(** ** C29 *)

(** With an external poll handler nothing happens. *)
Theorem C29_external : forall local gen now v a cb ok dcb s, add_event local true gen now v a cb ok dcb s = (s, []).
Proof. reflexivity. Qed.

(** Otherwise it raises ValueError exactly when the arguments are not
    acceptable, and then no queue, flag, callback or earlier event changes. *)
Theorem C29_rejects : forall local gen now v a cb ok dcb s s' es, add_event local false gen now v a cb ok dcb s = (s', es) ->
  (((forall l, ~ acceptable a cb ok l) /\ es = [ERaised ValueError]) \/ ((exists l, acceptable a cb ok l) /\ es = [])) /\
  (es <> [] -> (forall w, queue s' w = queue s w) /\ updated s' = updated s /\ completed s' = completed s /\ callbacks s' = callbacks s /\
     deliveries s' = deliveries s /\ done s' = done s /\ tasks s' = tasks s /\ (forall r, (r < next s)%nat -> heap s' r = heap s r)).
Proof.
  intros local gen now v a cb ok dcb s s' es H. unfold add_event in H.
  destruct (event_of_args local gen now v a) as [e|x] eqn:E.
  - pose proof (prepare_of_args _ _ _ _ _ _ E) as PR. pose proof (event_of_args_ok _ _ _ _ _ _ E) as
      (l & st & d & IV & NE & RS & TY & NM & _ & _ & _ & _ & _ & RR & _).
    apply add_cases in H as (_ & CP & DN & TK & [(x & -> & Q & U & C & D & HH & CASE & _)|(e' & -> & _ & OK & _)]).
    + cbn [content_of] in CASE. destruct CASE as [[CB ->]|CB]; [|congruence]. split.
      * left. split; [|reflexivity]. intros m (_ & _ & _ & _ & _ & K). unfold callback_ok in CB. destruct cb as [[n|f]|]; try discriminate.
        destruct (String.eqb_spec (ev_response e) "always"); [|discriminate]. subst ok. specialize (K ltac:(congruence) n eq_refl). discriminate.
      * intros _. repeat split; auto. intros r L. rewrite HH. cbn [object_of]. apply upd_other. lia.
    + cbn [content_of] in OK. split; [|congruence]. right. split; [|reflexivity]. exists l. repeat split; auto.
      intros A n ->. unfold callback_ok in OK. rewrite RR, A in OK. exact OK.
  - apply pair_equal_spec in H as [<- <-]. apply event_of_args_raise in E as [-> N]. split; [left; split; [|reflexivity]; auto|]. repeat split.
Qed.

(** When it accepts, exactly one new event is appended to that VEN's queue. *)
Theorem C29_accepts : forall local gen now v a cb ok dcb s s' l, add_event local false gen now v a cb ok dcb s = (s', []) ->
  acceptable a cb ok l ->
  queue s' v = (queue s v ++ [next s])%list /\ (forall w, w <> v -> queue s' w = queue s w) /\ next s' = S (next s) /\
  (forall r, (r < next s)%nat -> heap s' r = heap s r) /\ get scalar_eqb v (updated s') = Some true /\
  let e := heap s' (next s) in
  (exists m id targets, ev_signals e = [mk_sg m (aa_name a) (aa_type a) id None None None None] /\ Forall2 (same_interval local) l m /\
     targets_for v a targets /\ ev_targets e = Some targets /\ ev_tbt e = Some (group_targets_by_type targets) /\
     exists times start dur, Forall2 timed m times /\ covering times start (start + dur) /\ ap_start (ev_period e) = Aware start /\ ap_duration (ev_period e) = dur) /\
  ev_mod e = 0 /\ ev_response e = aa_response a /\ ed_context (ev_descriptor e) = aa_context a /\ ed_priority (ev_descriptor e) = Some 0 /\
  ed_test (ev_descriptor e) = false /\ ed_comment (ev_descriptor e) = None /\
  (forall id, aa_event_id a = Some id -> ~ empty_id id -> ev_id e = id) /\
  ((aa_event_id a = None \/ exists id, aa_event_id a = Some id /\ empty_id id) -> ev_id e = SStr (gen 0%nat)) /\
  callbacks s' = (match cb with Some c => set scalar_eqb (ev_id e) c (callbacks s) | None => callbacks s end) /\
  deliveries s' = (match dcb with Some n => set scalar_eqb (ev_id e) n (deliveries s) | None => deliveries s end).
Proof.
  intros local gen now v a cb ok dcb s s' l H (_ & _ & _ & IV & _). unfold add_event in H.
  destruct (event_of_args local gen now v a) as [e|x] eqn:E; [|discriminate].
  pose proof (prepare_of_args _ _ _ _ _ _ E) as PR. pose proof (event_of_args_ok _ _ _ _ _ _ E) as
      (l' & st & d & IV' & NE & _ & _ & _ & COV & _ & SG & TG & TB & RR & MD & CX & PRI & TST & COM & ID & PER & _).
  rewrite IV in IV'. injection IV' as <-.
  apply add_cases in H as (NX & _ & _ & _ & [(x & C & _)|(e' & _ & P & OK & HH & Q & QO & U & CB & DC)]); [discriminate|].
  cbn [object_of content_of] in *. rewrite PR in P. injection P as <-.
  split; [assumption|]. split; [intros w N; apply queue_ext; auto|]. split; [assumption|].
  split; [intros r L; rewrite HH; apply upd_other; lia|]. split; [rewrite U; now rewrite (get_set_same _ scalar_eqb_eq)|].
  cbv zeta. rewrite HH, upd_same. set (p := mk_ap _ _ None None None).
  change (ev_signals (set_period p e)) with (ev_signals e). change (ev_targets (set_period p e)) with (ev_targets e).
  change (ev_tbt (set_period p e)) with (ev_tbt e). change (ev_mod (set_period p e)) with (ev_mod e).
  change (ev_response (set_period p e)) with (ev_response e). change (ev_descriptor (set_period p e)) with (ev_descriptor e).
  change (ev_id (set_period p e)) with (ev_id e). change (ev_period (set_period p e)) with p.
  split.
  { exists (map (make_aware local) l), (SStr (gen 1%nat)), (choose_targets v a). split; [assumption|]. split.
    { clear. induction l; simpl; constructor; [apply make_aware_same|assumption]. }
    split; [apply choose_targets_for|]. split; [assumption|]. split; [assumption|].
    exists (map time_of (map (make_aware local) l)), st, d. split.
    { clear. induction l as [|i l IH]; simpl; constructor; [|assumption]. unfold timed, time_of, make_aware.
      destruct (iv_start i) eqn:K; simpl; rewrite ?K; split; reflexivity. }
    split; [assumption|]. unfold p. rewrite PER. split; reflexivity. }
  split; [assumption|]. split; [assumption|]. split; [assumption|]. split; [assumption|]. split; [assumption|]. split; [assumption|].
  split; [|split; [|split; assumption]].
  - intros id EI N. rewrite ID, EI. destruct (truthy_id id) eqn:T; [reflexivity|]. apply truthy_id_spec in T. contradiction.
  - intros [EI|(id & EI & K)]; rewrite ID, EI; [reflexivity|]. apply truthy_id_spec in K. now rewrite K.
Qed.

Theorem C29_targets_unique : forall v a l m, targets_for v a l -> targets_for v a m -> l = m.
Proof. exact targets_for_fun. Qed.

Definition ex_args (iv : intervals_arg) (name : string) (ramp : option Z) : add_args :=
  mk_args name "level" iv None None None (Some [("group_id", SStr "g1")]) "always" "oadr://unknown.context" None ramp None.
Definition ex_intervals : list interval := [mk_iv (Naive 200) 50 (SInt 2) None; mk_iv (Aware 100) 30 (SInt 1) None].
Definition ex_add (a : add_args) (ok : bool) : state * list effect :=
  add_event (fun w => w - 5) false (fun _ => "gen") (fun _ => 0) v1 a (Some (CFun 3)) ok None ex_zero.

Example C29_example :
  (exists l, acceptable (ex_args (ListOfIntervals ex_intervals) "x-mine" None) (Some (CFun 3)) true l) /\
  snd (ex_add (ex_args (ListOfIntervals ex_intervals) "x-mine" None) true) = [] /\
  (let e := heap (fst (ex_add (ex_args (ListOfIntervals ex_intervals) "x-mine" None) true)) 0%nat in
   (ap_start (ev_period e), ap_duration (ev_period e), ev_targets e) = (Aware 100, 145, Some [[("group_id", SStr "g1")]])) /\
  snd (ex_add (ex_args (ListOfIntervals ex_intervals) "y-mine" None) true) = [ERaised ValueError] /\
  snd (ex_add (ex_args (ListOfIntervals []) "SIMPLE" None) true) = [ERaised ValueError] /\
  snd (ex_add (ex_args (ListOfIntervals ex_intervals) "SIMPLE" None) false) = [ERaised ValueError].
Proof.
  split; [|vm_compute; auto 10]. exists ex_intervals. split; [left; reflexivity|]. split; [simpl; auto|]. split; [right; now exists "mine"|].
  split; [reflexivity|]. split; [discriminate|reflexivity].
Qed.

(** ** C28 *)

(** The given periods are those of the queued event, and a request during the
    ramp-up period reports it as near. *)
Definition C28_full_periods : Prop := forall local gen now v a cb ok dcb s s', add_event local false gen now v a cb ok dcb s = (s', []) ->
  let p := ev_period (heap s' (next s)) in
  ap_notification p = aa_notification a /\ ap_ramp_up p = aa_ramp_up a /\ ap_recovery p = aa_recovery a.
Definition C28_full_near : Prop := forall local gen now v a cb ok dcb s s' t clock s'' evs e ramp start,
  initial s -> add_event local false gen now v a cb ok dcb s = (s', []) -> aa_ramp_up a = Some ramp ->
  step local s' (LRequest t v clock) = Some (s'', [ESent t v evs]) -> In (next s, e) evs -> ap_start (ev_period e) = Aware start ->
  start - ramp <= fst (clock 0%nat) < start -> ev_status e = Near.

Definition C28_args := ex_args (ListOfIntervals ex_intervals) "SIMPLE" (Some 20).
Theorem C28_periods_refuted : ~ C28_full_periods.
Proof.
  intros F. specialize (F (fun w => w - 5) (fun _ => "gen") (fun _ => 0) v1 C28_args (Some (CFun 3)) true None ex_zero
    (fst (ex_add C28_args true)) ltac:(vm_compute; reflexivity)). vm_compute in F. destruct F as (_ & F & _). discriminate.
Qed.
Theorem C28_near_refuted : ~ C28_full_near.
Proof.
  intros F. set (s' := fst (ex_add C28_args true)).
  destruct (step (fun w => w - 5) s' (LRequest 0 v1 (at_time 90))) as [[s'' es]|] eqn:ST; [|vm_compute in ST; discriminate].
  assert (K : exists e, es = [ESent 0%nat v1 [(0%nat, e)]] /\ ap_start (ev_period e) = Aware 100 /\ ev_status e = Far).
  { vm_compute in ST. injection ST as _ <-. eexists. split; [reflexivity|]. split; reflexivity. }
  destruct K as (e & -> & A & B).
  specialize (F (fun w => w - 5) (fun _ => "gen") (fun _ => 0) v1 C28_args (Some (CFun 3)) true None ex_zero s' 0%nat (at_time 90) s'' [(0%nat, e)] e 20 100
    ex_initial ltac:(vm_compute; reflexivity) eq_refl ST (or_introl eq_refl) A ltac:(simpl; lia)). congruence.
Qed.

(** What does hold.  No distribution ever contains one of the three periods,
    and no event is reported near when a request is answered at once; so the
    given periods reach the VEN exactly when none were given. *)
Theorem C28_never_partial :
  (forall local P s0 ls es s t v evs r e, initial s0 -> runs local P s0 ls es s -> In (ESent t v evs) es -> In (r, e) evs ->
     ap_notification (ev_period e) = None /\ ap_ramp_up (ev_period e) = None /\ ap_recovery (ev_period e) = None) /\
  (forall local P s0 ls es s t v clock l s' es' evs r e, initial s0 -> runs local P s0 ls es s ->
     (l = LPoll t v clock \/ l = LRequest t v clock) -> step local s l = Some (s', es') -> In (ESent t v evs) es' -> In (r, e) evs -> ev_status e <> Near) /\
  (forall local gen now v a cb ok dcb s s', add_event local false gen now v a cb ok dcb s = (s', []) ->
     let p := ev_period (heap s' (next s)) in
     (ap_notification p = aa_notification a /\ ap_ramp_up p = aa_ramp_up a /\ ap_recovery p = aa_recovery a) <->
     (aa_notification a = None /\ aa_ramp_up a = None /\ aa_recovery a = None)).
Proof.
  split; [|split].
  - intros local P s0 ls es s t v evs r e I0 H IN I. induction H as [s|s ls es s1 l es1 s2 H IH Pl ST]; [contradiction|].
    apply in_app_iff in IN as [IN|IN]; [now apply IH|].
    rewrite (sent_eq _ _ _ _ _ _ _ _ _ _ ST IN I).
    assert (PD : pending s1 v r) by (eapply sent_pending; [exact ST|exact IN|]; apply in_map_iff; exists (r, e); auto).
    eapply step_bare; [exact ST| |]; [eapply pending_added|eapply pending_bare]; eassumption.
  - intros local P s0 ls es s t v clock l s' es' evs r e I0 H L ST IN I.
    assert (PD : pending s v r) by (eapply sent_pending; [exact ST|exact IN|]; apply in_map_iff; exists (r, e); auto).
    rewrite (sent_eq _ _ _ _ _ _ _ _ _ _ ST IN I).
    destruct (step_sent _ _ _ _ _ _ _ _ ST IN) as (_ & _ & [(clock' & L' & _ & SUB & _)|(p & src & i & L' & _)]).
    2:{ destruct L as [->| ->]; discriminate. }
    assert (IQ : In r (queue s v)) by (apply SUB; apply in_map_iff; exists (r, e); auto).
    assert (B : bare (heap s r)) by (eapply pending_bare; eassumption).
    assert (HS : exists p, request_event local t p v clock s = (s', es')).
    { destruct L as [->| ->]; cbn [step] in ST; destruct (mem _ _ _); try discriminate; injection ST as ST.
      - exists true. unfold poll in ST. destruct (get scalar_eqb v (updated s)) as [[]|]; [exact ST|..]; apply pair_equal_spec in ST as [_ <-]; destruct IN as [IN|[]]; discriminate.
      - exists false. exact ST. }
    destruct HS as (p & HS). apply request_heap in HS as [-> _]. now apply refresh_refs_near.
  - intros local gen now v a cb ok dcb s s' H. unfold add_event in H. destruct (event_of_args local gen now v a) as [e|x] eqn:E; [|discriminate].
    apply add_cases in H as (_ & _ & _ & _ & [(x & C & _)|(e' & _ & P & _ & HH & _)]); [discriminate|]. cbn [object_of] in HH. cbv zeta. rewrite HH, upd_same.
    apply prepare_bare in P as (A & B & C). rewrite A, B, C. intuition congruence.
Qed.

Example C28_example :
  let s := fst (ex_add C28_args true) in
  map (fun now => match step (fun w => w - 5) s (LRequest 0 v1 (at_time now)) with
                  | Some (_, [ESent _ _ evs]) => map (fun p => (ev_status (snd p), ap_ramp_up (ev_period (snd p)))) evs | _ => [] end) [79; 85; 100; 244; 245] =
  [[(Far, None)]; [(Far, None)]; [(Active, None)]; [(Active, None)]; []].
Proof. vm_compute. reflexivity. Qed.

Print Assumptions C28_periods_refuted.
Print Assumptions C28_near_refuted.
Print Assumptions C28_never_partial.
Print Assumptions C29_external.
Print Assumptions C29_rejects.
Print Assumptions C29_accepts.
Print Assumptions C29_targets_unique.
