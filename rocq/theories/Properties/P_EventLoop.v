(** C77: from the VTN to a VEN and back. *)
From Coq Require Import ZArith String List Bool Lia Sorting.Permutation.
From Verif.Base Require Import Result Dict PyStr ListExtra.
From Verif.Model Require Import Objects EventTime EventService.
From Verif.Model Require Import ClientEvents.
From Verif.Model Require Import EventService.
From Verif.Spec Require Import EventSpec QueueSpec EventLoopSpec.
From Verif.Spec Require ClientEventSpec.
From Verif.Proofs Require Import EventTimeProofs QueueProofs QueueHistory QueueLaws QueueAnswers DeliveryProofs EventLoopProofs.
From Verif.Proofs Require ClientEventProofs PreflightProofs.
From Verif.Properties Require P_Queue P_ClientEvents.
Import ListNotations.
Local Open Scope string_scope.
Local Open Scope Z_scope.

(** ** What the VTN has sent and what the VEN answers *)
Lemma NoDup_map_in {A B} (f : A -> B) l : NoDup l -> (forall x y, In x l -> In y l -> f x = f y -> x = y) -> NoDup (map f l).
Proof.
  induction l as [|x l IH]; intros N H; cbn [map]; [constructor|]. inversion N as [|? ? NI ND]; subst. constructor.
  - intros I. apply in_map_iff in I as (y & E & J). apply NI. rewrite (H x y) by (auto using in_eq, in_cons). exact J.
  - apply IH; [exact ND|]. intros a b Ia Ib. apply H; now right.
Qed.

Lemma sent_distinct local s0 hist es0 s l t v clock s1 sent : initial s0 -> runs local distinct_ids s0 hist es0 s ->
  (l = LPoll t v clock \/ l = LRequest t v clock) -> step local s l = Some (s1, [ESent t v sent]) -> NoDup (map ev_id (map snd sent)).
Proof.
  intros I0 R L ST. destruct (sent_cases _ _ _ _ _ _ _ _ L ST) as (o & _ & IN & _ & E & ND & _).
  assert (D := distinct_invariant _ _ _ _ _ I0 R v). unfold queued in D. rewrite map_map in D.
  assert (ID : forall r, In r (map fst sent) -> ev_id (heap s1 r) = ev_id (heap s r) /\ In r (queue s v)).
  { intros r I. apply in_map_iff in I as ([r' e] & Er & I). cbn in Er. subst r'. destruct (IN r e I) as [IQ _]. split; [|exact IQ].
    eapply ids_fixed; [exact ST|]. eapply (pending_added _ _ _ _ _ _ I0 R v r). now left. }
  rewrite E, !map_map. cbn [snd]. rewrite <- map_map with (f := fst) (g := fun r => ev_id (heap s1 r)). apply NoDup_map_in.
  - apply ND. clear - D. apply NoDup_map_inv in D. exact D.
  - intros x y Ix Iy Exy. destruct (ID x Ix) as [Ex Qx], (ID y Iy) as [Ey Qy]. rewrite Ex, Ey in Exy. exact (NoDup_map_eq (fun r => ev_id (heap s r)) _ x y D Qx Qy Exy).
Qed.

Lemma those_sub {A} (P : nat -> A -> Prop) i l r : ClientEventSpec.those P i l r -> sublist (map snd r) l.
Proof. intros T. induction T; cbn [map snd]; [constructor|now constructor|now apply sub_drop]. Qed.

Lemma those_in {A} (P : nat -> A -> Prop) i l r : ClientEventSpec.those P i l r -> forall k x, nth_error l (k - i) = Some x -> (i <= k)%nat -> P k x -> In (k, x) r.
Proof.
  intros T. induction T as [i|i y l r p T IH|i y l r np T IH]; intros k x N L p'.
  - destruct (k - i)%nat; discriminate N.
  - destruct (Nat.eq_dec k i) as [->|NE]; [rewrite Nat.sub_diag in N; injection N as ->; now left|]. right. apply IH; [|lia|exact p'].
    replace (k - i)%nat with (S (k - S i))%nat in N by lia. exact N.
  - destruct (Nat.eq_dec k i) as [->|NE]; [rewrite Nat.sub_diag in N; injection N as ->; contradiction|]. apply IH; [|lia|exact p'].
    replace (k - i)%nat with (S (k - S i))%nat in N by lia. exact N.
Qed.

Lemma answers_findable local s0 hist es0 s l t v clock s1 sent vlocal h vclock vtn rq c c' log code rs :
  initial s0 -> runs local distinct_ids s0 hist es0 s -> (l = LPoll t v clock \/ l = LRequest t v clock) -> step local s l = Some (s1, [ESent t v sent]) ->
  on_event vlocal h vclock (mk_msg (map snd sent) vtn rq) c = (c', log, Some (code, rs)) -> (forall i j, fst (clock i) <= vclock j) ->
  findable s1 v (map arrived rs).
Proof.
  intros I0 R L ST OE CK. pose proof (sent_distinct _ _ _ _ _ _ _ _ _ _ _ I0 R L ST) as DS.
  destruct (sent_cases _ _ _ _ _ _ _ _ L ST) as (o & _ & IN & _ & E & ND & KEPT & COMP).
  destruct (P_ClientEvents.C47_answers _ _ _ _ _ _ _ _ OE) as (dl & T & [[_ K]|(_ & code' & rs' & K & _ & F)]); [discriminate K|]. injection K as <- <-.
  cbn [m_events] in T.
  assert (IDS : map rs_id (map arrived rs) = map ev_id (map snd dl)).
  { clear - F. induction F as [|ie r dl rs (a & _ & A) F IH]; [reflexivity|]. cbn [map]. f_equal; [|exact IH]. exact (proj1 A). }
  split.
  - rewrite IDS. eapply sublist_NoDup; [|exact DS]. apply sublist_map. eapply those_sub. exact T.
  - intros r I. apply in_map_iff in I as (r0 & <- & I). destruct (PreflightProofs.F2_in_r _ _ _ F _ I) as ([k e] & IE & a & _ & A).
    destruct (ClientEventProofs.those_nth _ _ _ _ T _ _ IE) as (_ & N & (_ & DU)). apply nth_error_In in N.
    apply in_map_iff in N as ([x e'] & Ee & IX). cbn in Ee. subst e'. destruct (IN x e IX) as [_ HE].
    exists x. destruct A as (A1 & A2 & _). cbn [snd] in A1, A2. cbn [arrived rs_id rs_mod]. rewrite A1, A2, <- HE. split; [|auto].
    apply (KEPT x e IX). intros C. apply DU. destruct (COMP x e IX C) as (j & b & SA & IM). exists b. rewrite SA. split; [reflexivity|].
    specialize (CK j k). inversion IM; subst. constructor; lia.
Qed.

Lemma findable_untouched v rs s s' : findable s v rs -> untouched v (map rs_id rs) s s' -> findable s' v rs.
Proof.
  intros (N & F) (U1 & U2 & _). split; [exact N|]. intros r I. destruct (F r I) as (x & IX & E1 & E2). exists x. rewrite U1, U2 by exact IX. auto.
Qed.

(** ** C77 *)
(** Every oadrCreatedEvent that the VEN sends about the events it got is
    accepted, and each choice in it is passed on. *)
Definition C77_full : Prop := forall local s0 hist es0 s l t v clock s1 sent vlocal h vclock vtn rq c c' log code rs ls es1 s2 t2 es s3,
  initial s0 -> runs local distinct_ids s0 hist es0 s -> (l = LPoll t v clock \/ l = LRequest t v clock) -> step local s l = Some (s1, [ESent t v sent]) ->
  on_event vlocal h vclock (mk_msg (map snd sent) vtn rq) c = (c', log, Some (code, rs)) ->
  runs local any s1 ls es1 s2 -> untouched v (map ClientEvents.rs_id rs) s1 s2 ->
  answering local t2 v (map arrived rs) s2 es s3 -> over t2 s3 ->
  exists es', es = (es' ++ [EAck t2 v])%list /\ reports v (known_callback s2) (done s2) (map arrived rs) es'.

(** It is when the VEN's clock is not behind the VTN's. *)
Theorem C77_accepted_partial : forall local s0 hist es0 s l t v clock s1 sent vlocal h vclock vtn rq c c' log code rs ls es1 s2 t2 es s3,
  initial s0 -> runs local distinct_ids s0 hist es0 s -> (l = LPoll t v clock \/ l = LRequest t v clock) -> step local s l = Some (s1, [ESent t v sent]) ->
  on_event vlocal h vclock (mk_msg (map snd sent) vtn rq) c = (c', log, Some (code, rs)) -> (forall i j, fst (clock i) <= vclock j) ->
  runs local any s1 ls es1 s2 -> untouched v (map ClientEvents.rs_id rs) s1 s2 ->
  answering local t2 v (map arrived rs) s2 es s3 ->
  (over t2 s3 /\ exists es', es = (es' ++ [EAck t2 v])%list /\ reports v (known_callback s2) (done s2) (map arrived rs) es') \/
  (exists past rest, map arrived rs = (past ++ rest)%list /\ reports v (known_callback s2) (done s2) past es /\ get Nat.eqb t2 (tasks s3) = Some (TCreated v rest)).
Proof.
  intros local s0 hist es0 s l t v clock s1 sent vlocal h vclock vtn rq c c' log code rs ls es1 s2 t2 es s3 I0 R L ST OE CK R2 U A.
  assert (F1 := answers_findable _ _ _ _ _ _ _ _ _ _ _ _ _ _ _ _ _ _ _ _ _ I0 R L ST OE CK).
  assert (IDS : map rs_id (map arrived rs) = map ClientEvents.rs_id rs) by (rewrite map_map; reflexivity).
  rewrite <- IDS in U. assert (F2 := findable_untouched _ _ _ _ F1 U).
  assert (ND : NoDup (keys (tasks s2))).
  { eapply runs_tasks_nodup; [exact R2|]. eapply runs_tasks_nodup; [eapply (runs_one local any); [exact I|exact ST]|]. eapply runs_nodup_tasks; [exact R|now apply initial_nodup]. }
  destruct (answering_progress _ _ _ _ _ _ _ A F2 ND) as (_ & [(es' & E & RP & O)|(past & rest & E & RP & G & _)]).
  - left. eauto.
  - right. exists past, rest. auto.
Qed.

(** Nothing is lost: the handler's choice about an event (or the remembered
    one) reaches the callback that the event was added with. *)
Lemma reports_fun v k o rs es r n : reports v k o rs es -> In r rs -> k (rs_id r) = Some (CFun n) -> In (ECall n v (rs_id r) (rs_opt r)) es.
Proof.
  intros R. induction R; intros I K; [destruct I|..]; destruct I as [->|I]; try congruence; auto using in_eq, in_cons.
  left. congruence.
Qed.
Lemma reports_fut v k o rs es r f : reports v k o rs es -> In r rs -> k (rs_id r) = Some (CFut f) -> ~ In f o ->
  (forall r', In r' rs -> k (rs_id r') = Some (CFut f) -> r' = r) -> In (EResult f v (rs_id r) (rs_opt r)) es.
Proof.
  intros R. induction R as [o|o x rs es K R IH|o x rs es n K R IH|o x rs es g K N R IH|o x rs es g K N R IH]; intros I KR NO UQ; [destruct I|..].
  - destruct I as [->|I]; [congruence|]. apply IH; auto using in_cons.
  - destruct I as [->|I]; [congruence|]. right. apply IH; auto using in_cons.
  - destruct I as [->|I]; [left; congruence|]. destruct (Nat.eq_dec g f) as [->|NE].
    + rewrite (UQ x (or_introl eq_refl) K). now left.
    + right. apply IH; auto using in_cons. intros [J|J]; congruence.
  - destruct I as [->|I]; [congruence|]. apply IH; auto using in_cons.
Qed.

Theorem C77_choices_partial : forall local s0 hist es0 s l t v clock s1 sent vlocal h vclock vtn rq c c' log code rs ls es1 s2 t2 es s3,
  initial s0 -> runs local distinct_ids s0 hist es0 s -> (l = LPoll t v clock \/ l = LRequest t v clock) -> step local s l = Some (s1, [ESent t v sent]) ->
  let m := mk_msg (map snd sent) vtn rq in
  ClientEventSpec.proper_vtn m -> ClientEventSpec.all_answered c -> on_event vlocal h vclock m c = (c', log, Some (code, rs)) -> ClientEventSpec.no_failure log -> (forall i j, fst (clock i) <= vclock j) ->
  runs local any s1 ls es1 s2 -> untouched v (map ClientEvents.rs_id rs) s1 s2 -> answering local t2 v (map arrived rs) s2 es s3 -> over t2 s3 ->
  forall i e, nth_error (map snd sent) i = Some e -> ClientEventSpec.due vlocal vclock i e ->
  exists w a, ClientEventSpec.chosen w a /\
    ((exists k, ClientEventSpec.subject k = e /\ In (i, k, Ok w) log) \/ (forall k, ~ ClientEventSpec.called log i k) /\ get scalar_eqb (ev_id e) (vs_responded c) = Some w) /\
    (forall n, known_callback s2 (ev_id e) = Some (CFun n) -> In (ECall n v (ev_id e) a) es) /\
    (forall f, known_callback s2 (ev_id e) = Some (CFut f) -> ~ In f (done s2) ->
       (forall id, known_callback s2 id = Some (CFut f) -> id = ev_id e) -> In (EResult f v (ev_id e) a) es).
Proof.
  intros local s0 hist es0 s l t v clock s1 sent vlocal h vclock vtn rq c c' log code rs ls es1 s2 t2 es s3 I0 R L ST m PV AA OE NF CK R2 U A O i e NI DU.
  assert (ND := sent_distinct _ _ _ _ _ _ _ _ _ _ _ I0 R L ST).
  destruct (C77_accepted_partial _ _ _ _ _ _ _ _ _ _ _ _ _ _ _ _ _ _ _ _ _ _ _ _ _ _ _ I0 R L ST OE CK R2 U A) as [(_ & es' & -> & RP)|(past & rest & _ & _ & G)];
    [|unfold over in O; congruence].
  assert (F1 := answers_findable _ _ _ _ _ _ _ _ _ _ _ _ _ _ _ _ _ _ _ _ _ I0 R L ST OE CK). destruct F1 as (NDR & _).
  destruct (P_ClientEvents.C47_choices_partial _ _ _ _ _ _ _ _ _ PV AA ND NF OE) as (dl & T & F). cbn [m m_events] in T.
  assert (IE : In (i, e) dl) by (eapply those_in; [exact T|rewrite Nat.sub_0_r; exact NI|lia|exact DU]).
  destruct (PreflightProofs.F2_in_l _ _ _ F _ IE) as (r & IR & w & a & CH & AN & SRC). cbn [fst snd] in *. exists w, a. split; [exact CH|]. split; [exact SRC|].
  assert (IR' : In (arrived r) (map arrived rs)) by now apply in_map. destruct AN as (A1 & _ & _ & A4 & _).
  assert (E1 : rs_id (arrived r) = ev_id e) by exact A1. assert (E2 : rs_opt (arrived r) = a) by exact A4.
  rewrite <- E1, <- E2. split.
  - intros n K. apply in_app_iff. left. eapply reports_fun; eassumption.
  - intros f K NO UQ. apply in_app_iff. left. eapply reports_fut; [exact RP|exact IR'|exact K|exact NO|].
    intros r' I' K'. apply UQ in K'. eapply (NoDup_map_eq rs_id); eassumption.
Qed.

(** Steps about other VENs do not disturb it, as long as they do not take the
    callbacks for the same event ids. *)
Definition elsewhere (v : scalar) (ids : list scalar) (s : state) (l : label) : Prop :=
  no_sharing s l /\ ~ about s l v /\
  match l with
  | LAdd _ src cb _ _ => cb = None \/ ~ In (id_of s src) ids
  | LCreated _ _ _ | LFuture _ => False
  | LResume t out => exists p w src i, get Nat.eqb t (tasks s) = Some (TDeliver p w src i)
  | _ => True
  end.
Theorem C77_others : forall local s0 hist es0 s l s' es v ids, initial s0 -> runs local no_sharing s0 hist es0 s ->
  step local s l = Some (s', es) -> elsewhere v ids s l -> untouched v ids s s'.
Proof.
  intros local s0 hist es0 s l s' es v ids I0 R ST (NS & NA & EL).
  destruct (step_other _ _ _ _ _ v ST NA) as (Q & _ & _ & HH).
  assert (CB : (forall id, In id ids -> known_callback s' id = known_callback s id) /\ done s' = done s).
  { assert (RQ : forall t p w clock, request_event local t p w clock s = (s', es) -> callbacks s' = callbacks s /\ done s' = done s).
    { intros t p w clock R0. destruct (request_cases local t p w clock s) as [[_ R1]|(_ & h & _ & [(e & R1 & _)|(o & q' & i' & s2 & _ & _ & _ & _ & _ & _ & _ & _ & C & _ & D & _ & _ & _ & _ & R1)])]; rewrite R1 in R0.
      - apply pair_equal_spec in R0 as [<- _]. destruct p; auto.
      - apply pair_equal_spec in R0 as [<- _]. auto.
      - apply deliver_frame in R0 as (_ & _ & _ & _ & _ & C' & D' & _). split; congruence. }
    assert (EQ : callbacks s' = callbacks s /\ done s' = done s -> (forall id, In id ids -> known_callback s' id = known_callback s id) /\ done s' = done s).
    { intros [C D]. split; [|exact D]. intros id _. unfold known_callback. now rewrite C. }
    destruct l as [w src cb ok dcb|w id|tid w clock|tid w clock|tid w rs|tid out|f]; cbn [step] in ST.
    - assert (A : add_raw_event w src cb ok dcb s = (s', es)) by (destruct src; [|destruct (Nat.ltb _ _); [|discriminate]]; congruence).
      clear EQ RQ. unfold add_raw_event in A. destruct src as [e|r]; [|destruct NS]. cbn [id_of] in EL.
      destruct (callback_ok _ _ _); [|apply pair_equal_spec in A as [<- _]; split; [reflexivity|reflexivity]].
      destruct (prepare e) as [e'|x]; [|apply pair_equal_spec in A as [<- _]; destruct (mem _ _ _); split; reflexivity].
      apply pair_equal_spec in A as [<- _]. split; [|destruct cb, dcb, (mem scalar_eqb w _); reflexivity].
      intros id I. unfold known_callback. destruct EL as [-> |NI]; [destruct dcb, (mem scalar_eqb w _); reflexivity|].
      destruct cb as [c|]; [|destruct dcb, (mem scalar_eqb w _); reflexivity].
      transitivity (get scalar_eqb id (set scalar_eqb (ev_id e) c (callbacks s))); [destruct dcb, (mem scalar_eqb w _); reflexivity|].
      apply (get_set_other _ scalar_eqb_eq). intros ->. contradiction.
    - injection ST as <- _. apply EQ. destruct (cancel_cases w id s) as [[_ ->]|(r & _ & ->)]; split; reflexivity.
    - destruct (mem _ _ _); [discriminate|]. injection ST as ST. apply EQ. unfold poll in ST.
      destruct (get scalar_eqb w (updated s)) as [[]|]; [eapply RQ; exact ST| |]; apply pair_equal_spec in ST as [<- _]; split; reflexivity.
    - destruct (mem _ _ _); [discriminate|]. injection ST as ST. apply EQ. eapply RQ; exact ST.
    - destruct EL.
    - destruct EL as (p & w & src & i & G). rewrite G in ST. apply EQ. destruct out as [[]|e].
      + injection ST as ST. apply deliver_frame in ST as (_ & _ & _ & _ & _ & C' & D' & _). auto.
      + injection ST as <- _. split; reflexivity.
    - destruct EL. }
  destruct CB as [C D]. split; [now apply queue_ext|]. split; [|split; [exact C|intros id f _ _; rewrite D; reflexivity]].
  intros r I. destruct (HH r) as [E|[(w & N & J)|(w & src & cb & ok & dcb & -> & E)]]; [exact E| |].
  - exfalso. apply N. eapply disjoint_queues; eassumption.
  - destruct src; [|contradiction]. simpl in E. assert (r < next s)%nat by (eapply (pending_added _ _ _ _ _ _ I0 R v r); now left). lia.
Qed.

(** When the VEN's clock is behind, it answers about an event that the VTN
    sent as completed; the answer makes the VTN fail, and the choice about the
    other event is lost. *)
Definition C77_events : list label :=
  [LAdd P_Queue.v1 (EventService.New (P_Queue.ex_event "e1" 100 50)) (Some (CFun 1)) true None; LAdd P_Queue.v1 (EventService.New (P_Queue.ex_event "e2" 200 50)) (Some (CFut 2)) true None].
Definition C77_sent (t : Z) : list (nat * event) :=
  match step (fun w => w) (P_Queue.ex_state C77_events) (LRequest 0 P_Queue.v1 (P_Queue.at_time t)) with Some (_, [ESent _ _ evs]) => evs | _ => [] end.
Definition C77_after (t : Z) : state :=
  match step (fun w => w) (P_Queue.ex_state C77_events) (LRequest 0 P_Queue.v1 (P_Queue.at_time t)) with Some (s, _) => s | _ => P_Queue.ex_zero end.
Definition C77_answer (t t' : Z) : list response :=
  match on_event (fun w => w) P_ClientEvents.ex_h (fun _ => t') (mk_msg (map snd (C77_sent t)) (Some (SStr "myVTN")) (SStr "rq")) P_ClientEvents.ex_start with
  | (_, _, Some (_, rs)) => map arrived rs | _ => [] end.
Lemma untouched_refl v ids s : untouched v ids s s.
Proof. repeat split; auto. Qed.

Theorem C77_clock_refuted : ~ C77_full.
Proof.
  intros H. set (rs := [ClientEvents.mk_resp 200 (SStr "optIn") (SStr "rq") 0 (SStr "e1"); ClientEvents.mk_resp 200 (SStr "optIn") (SStr "rq") 0 (SStr "e2")]).
  destruct (H (fun w => w) P_Queue.ex_zero C77_events (P_Queue.ex_effects C77_events) (P_Queue.ex_state C77_events) (LRequest 0 P_Queue.v1 (P_Queue.at_time 180)) 0%nat P_Queue.v1 (P_Queue.at_time 180)
    (C77_after 180) (C77_sent 180) (fun w => w) P_ClientEvents.ex_h (fun _ => 120) (Some (SStr "myVTN")) (SStr "rq") P_ClientEvents.ex_start
    (fst (fst (on_event (fun w => w) P_ClientEvents.ex_h (fun _ => 120) (mk_msg (map snd (C77_sent 180)) (Some (SStr "myVTN")) (SStr "rq")) P_ClientEvents.ex_start)))
    (snd (fst (on_event (fun w => w) P_ClientEvents.ex_h (fun _ => 120) (mk_msg (map snd (C77_sent 180)) (Some (SStr "myVTN")) (SStr "rq")) P_ClientEvents.ex_start)))
    200 rs [] [] (C77_after 180) 5%nat [EFail 5 P_Queue.v1 TypeError] (C77_after 180)) as (es' & E & _).
  - exact P_Queue.ex_initial.
  - apply P_Queue.ex_runs_in; [vm_compute; discriminate|]. vm_compute. intuition discriminate.
  - now right.
  - vm_compute. reflexivity.
  - vm_compute. reflexivity.
  - constructor.
  - apply untouched_refl.
  - apply as_first. vm_compute. reflexivity.
  - reflexivity.
  - destruct es' as [|x [|y es']]; discriminate E.
Qed.

(** With clocks that agree both choices arrive, also when another VEN is
    served in between. *)
Example C77_example : 
  C77_answer 180 180 = [mk_resp (SStr "e2") (SInt 0) (SStr "optIn")] /\
  C77_answer 10 10 = [mk_resp (SStr "e1") (SInt 0) (SStr "optIn"); mk_resp (SStr "e2") (SInt 0) (SStr "optIn")] /\
  option_map snd (run (fun w => w) (C77_after 10) [LCreated 5 P_Queue.v1 (C77_answer 10 10); LPoll 6 P_Queue.v2 (P_Queue.at_time 11); LResume 5 (Ok tt)]) =
    Some [ECall 1 P_Queue.v1 (SStr "e1") (SStr "optIn"); EEmpty 6 P_Queue.v2; EResult 2 P_Queue.v1 (SStr "e2") (SStr "optIn"); EAck 5 P_Queue.v1] /\
  elsewhere P_Queue.v1 [SStr "e1"; SStr "e2"] (C77_after 10) (LPoll 6 P_Queue.v2 (P_Queue.at_time 11)).
Proof. repeat split; try (vm_compute; reflexivity). cbn. discriminate. Qed.

Print Assumptions C77_accepted_partial.
Print Assumptions C77_choices_partial.
Print Assumptions C77_others.
Print Assumptions C77_clock_refuted.
