From Coq Require Import ZArith String List Bool Lia Sorting.Permutation.
From Verif.Base Require Import Result Dict PyStr ListExtra.
From Verif.Model Require Import Objects EventTime EventService.
From Verif.Spec Require Import EventSpec QueueSpec.
From Verif.Proofs Require Import EventTimeProofs QueueProofs QueueHistory.
Import ListNotations.
Local Open Scope Z_scope.

Lemma add_step local s v src cb ok dcb s' es : step local s (LAdd v src cb ok dcb) = Some (s', es) ->
  add_raw_event v src cb ok dcb s = (s', es) /\ (object_of s src < next s')%nat /\ match src with Same r => (r < next s)%nat | New _ => True end.
Proof.
  cbn [step]. destruct src as [e|r]; simpl.
  - intros H. injection H as H. split; [assumption|]. apply add_cases in H as (N & _). simpl in N. split; [lia|exact I].
  - destruct (Nat.ltb_spec r (next s)) as [LT|LT]; [|discriminate]. intros H. injection H as H. split; [assumption|].
    apply add_cases in H as (N & _). simpl in N. lia.
Qed.

(** ** C30, C37 *)
Lemma sent_added local P s0 ls es s t v evs r e : initial s0 -> runs local P s0 ls es s ->
  In (ESent t v evs) es -> In (r, e) evs -> added local P s0 ls v r e /\ (r < next s)%nat /\ later e (heap s r).
Proof.
  intros I0 H. revert t v evs r e. induction H as [s|s ls es s1 l es1 s2 H IH Pl ST]; intros t v evs r e IN I; [contradiction|].
  pose proof (step_next _ _ _ _ _ ST) as NX.
  apply in_app_iff in IN as [IN|IN].
  - destruct (IH I0 _ _ _ _ _ IN I) as (A & B & L). split; [eapply added_more; [exact A|apply later_refl]|]. split; [lia|].
    eapply later_trans; [exact L|]. eapply step_heap; [exact ST|assumption].
  - pose proof (sent_eq _ _ _ _ _ _ _ _ _ _ ST IN I) as ->.
    assert (M : In r (map fst evs)) by (change r with (fst (r, heap s2 r)); now apply in_map).
    destruct (sent_pending _ _ _ _ _ _ _ _ ST IN r M) as [PD _].
    destruct (pending_added _ _ _ _ _ _ I0 H v r PD) as [B A].
    split; [eapply added_more; [exact A|]; eapply step_heap; [exact ST|assumption]|]. split; [lia|apply later_refl].
Qed.

Lemma sent_twice local P s0 ls es s a b c t1 v1 evs1 t2 v2 evs2 r e1 e2 : initial s0 -> runs local P s0 ls es s ->
  es = (a ++ ESent t1 v1 evs1 :: b ++ ESent t2 v2 evs2 :: c)%list -> In (r, e1) evs1 -> In (r, e2) evs2 -> later e1 e2.
Proof.
  intros I0 H. revert a b c. induction H as [s|s ls es s1 l es1 s2 H IH Pl ST]; intros a b c E I1 I2.
  - destruct a; discriminate.
  - destruct (destruct_list es1) as [(x0 & y0 & E1)|E1].
    2:{ rewrite E1, app_nil_r in E. eapply IH; eassumption. }
    clear x0 y0 E1.
    assert (CASE : In (ESent t2 v2 evs2) es1 \/ exists c', es = (a ++ ESent t1 v1 evs1 :: b ++ ESent t2 v2 evs2 :: c')%list).
    { replace (a ++ ESent t1 v1 evs1 :: b ++ ESent t2 v2 evs2 :: c)%list with ((a ++ ESent t1 v1 evs1 :: b) ++ ESent t2 v2 evs2 :: c)%list in E
        by (now rewrite <- app_assoc).
      apply app_eq_app in E as (l' & [[E1 E2]|[E1 E2]]).
      - destruct l' as [|x l'].
        + left. simpl in E2. rewrite <- E2. now left.
        + right. injection E2 as <- E2. exists l'. rewrite E1. now rewrite <- app_assoc.
      - left. rewrite E2. apply in_app_iff. right. now left. }
    destruct CASE as [IN|(c' & E')]; [|eapply IH; eassumption].
    destruct (step_sent _ _ _ _ _ _ _ _ ST IN) as (S1 & _). rewrite S1 in E.
    assert (IN1 : In (ESent t1 v1 evs1) es).
    { replace (a ++ ESent t1 v1 evs1 :: b ++ ESent t2 v2 evs2 :: c)%list with ((a ++ ESent t1 v1 evs1 :: b) ++ ESent t2 v2 evs2 :: c)%list in E
        by (now rewrite <- app_assoc).
      destruct (exists_last (l := ESent t2 v2 evs2 :: c)) as (c1 & x & EC); [discriminate|].
      rewrite EC, app_assoc in E. apply app_inj_tail in E as [-> _]. apply in_app_iff. left. apply in_app_iff. right. now left. }
    destruct (sent_added _ _ _ _ _ _ _ _ _ _ _ I0 H IN1 I1) as (_ & B & L).
    rewrite (sent_eq _ _ _ _ _ _ _ _ _ _ ST IN I2). eapply later_trans; [exact L|]. eapply step_heap; [exact ST|assumption].
Qed.

(** Operations for other VENs. *)
Lemma step_other local s l s' es w : step local s l = Some (s', es) -> ~ about s l w ->
  get scalar_eqb w (queues s') = get scalar_eqb w (queues s) /\ get scalar_eqb w (updated s') = get scalar_eqb w (updated s) /\
  get scalar_eqb w (completed s') = get scalar_eqb w (completed s) /\
  (forall r, heap s' r = heap s r \/ (exists v, v <> w /\ In r (queue s v)) \/
     exists v src cb ok dcb, l = LAdd v src cb ok dcb /\ object_of s src = r).
Proof.
  intros H NA.
  assert (REQ : forall tid p v clock, v <> w -> request_event local tid p v clock s = (s', es) ->
    get scalar_eqb w (queues s') = get scalar_eqb w (queues s) /\ get scalar_eqb w (updated s') = get scalar_eqb w (updated s) /\
    get scalar_eqb w (completed s') = get scalar_eqb w (completed s) /\
    (forall r, heap s' r = heap s r \/ (exists v, v <> w /\ In r (queue s v)) \/ exists v src cb ok dcb, l = LAdd v src cb ok dcb /\ object_of s src = r)).
  { intros tid p v clock N R0.
    assert (HP : forall r, heap s' r = heap s r \/ (exists v, v <> w /\ In r (queue s v)) \/ exists v src cb ok dcb, l = LAdd v src cb ok dcb /\ object_of s src = r).
    { intros r. destruct (in_dec Nat.eq_dec r (queue s v)) as [I|I]; [right; left; eauto|]. left.
      apply request_heap in R0 as [-> _]. now apply refresh_refs_other. }
    destruct (request_cases local tid p v clock s) as [[Q R]|(NQ & h & Hh & [(e & R & _)|(o & q' & i' & s1 & _ & _ & SUB & IFF & _ & A & B & U & _ & _ & _ & _ & QS & C & _ & R)])]; rewrite R in R0.
    - apply pair_equal_spec in R0 as [<- _]. destruct p; simpl in *; (split; [reflexivity|]; split; [|split; [reflexivity|assumption]]); [apply (get_set_other _ scalar_eqb_eq); congruence|reflexivity].
    - apply pair_equal_spec in R0 as [<- _]. simpl in *. repeat split; assumption.
    - apply deliver_frame in R0 as (E & N' & CC & _ & QQ & _ & _ & _ & D).
      split; [rewrite QQ, QS; apply (get_set_other _ scalar_eqb_eq); congruence|].
      split; [|split; [rewrite CC; apply C; congruence|assumption]].
      destruct D as [(_ & _ & _ & _ & _ & _ & UU)|(_ & _ & UU)]; rewrite UU, U; [reflexivity|]. destruct p; [apply (get_set_other _ scalar_eqb_eq); congruence|reflexivity]. }
  destruct l as [v src cb ok dcb|v id|tid v clock|tid v clock|tid v rs|tid out|f]; cbn [about] in NA.
  - apply add_step in H as (A & _ & _). apply add_cases in A as (_ & C & _ & _ & [(x & _ & _ & U & _ & _ & HH & _ & Q)|(e' & _ & _ & _ & HH & _ & Q & U & _)]).
    + split; [apply Q; congruence|]. split; [now rewrite U|]. split; [now rewrite C|]. intros r. rewrite HH. destruct src as [e|r'].
      * destruct (Nat.eq_dec r (next s)) as [->|N]; [right; right; exists v, (New e), cb, ok, dcb; auto|left; simpl; now rewrite upd_other].
      * now left.
    + split; [apply Q; congruence|]. split; [rewrite U; apply (get_set_other _ scalar_eqb_eq); congruence|]. split; [now rewrite C|].
      intros r. rewrite HH. destruct (Nat.eq_dec r (object_of s src)) as [->|N]; [right; right; exists v, src, cb, ok, dcb; auto|left; now rewrite upd_other].
  - cbn [step] in H. injection H as <- <-. destruct (cancel_cases v id s) as [[_ ->]|(r & F & ->)]; simpl.
    + repeat split; auto.
    + split; [reflexivity|]. split; [apply (get_set_other _ scalar_eqb_eq); congruence|]. split; [reflexivity|].
      intros r'. destruct (Nat.eq_dec r' r) as [->|N]; [|left; now rewrite upd_other]. right; left. exists v. split; [assumption|]. now apply find_id_some in F.
  - cbn [step] in H. destruct (mem _ _ _); [discriminate|]. injection H as H. unfold poll in H. destruct (get scalar_eqb v (updated s)) as [[]|].
    + eapply REQ; eassumption.
    + apply pair_equal_spec in H as [<- _]. repeat split; auto.
    + apply pair_equal_spec in H as [<- _]. repeat split; auto.
  - cbn [step] in H. destruct (mem _ _ _); [discriminate|]. injection H as H. eapply REQ; eassumption.
  - cbn [step] in H. destruct (mem _ _ _); [discriminate|]. injection H as H. apply created_frame in H as (HH & _ & U & C & _ & Q & _).
    rewrite HH, U, C. repeat split; auto.
  - cbn [step] in H. destruct (get Nat.eqb tid (tasks s)) as [t|] eqn:G; [|discriminate]. destruct out as [[]|e].
    + destruct t as [p v src i|v rest]; injection H as H.
      * assert (N : v <> w) by (intros E; apply NA; eexists; split; [reflexivity|exact E]).
        apply deliver_frame in H as (HH & _ & C & _ & Q & _ & _ & _ & D). rewrite HH, C, Q. split; [reflexivity|]. split; [|repeat split; auto].
        destruct D as [(_ & _ & _ & _ & _ & _ & UU)|(_ & _ & UU)]; rewrite UU; [reflexivity|]. destruct p; [apply (get_set_other _ scalar_eqb_eq); congruence|reflexivity].
      * assert (N : v <> w) by (intros E; apply NA; eexists; split; [reflexivity|exact E]).
        apply created_frame in H as (HH & _ & U & C & _ & Q & _). rewrite HH, U, C. repeat split; auto.
    + injection H as <- _. simpl. repeat split; auto.
  - cbn [step] in H. injection H as <- _. simpl. repeat split; auto.
Qed.

Lemma disjoint_queues local s0 ls es s : initial s0 -> runs local no_sharing s0 ls es s ->
  forall v w r, In r (queue s v) -> In r (queue s w) -> v = w.
Proof.
  intros I0 H. induction H as [s|s ls es s1 l es1 s2 H IH Pl ST]; intros v w r Iv Iw.
  - destruct I0 as (_ & Q & _). unfold queue in Iv. rewrite Q in Iv. contradiction.
  - specialize (IH I0).
    assert (FRESH : forall u, In r (queue s1 u) -> (r < next s1)%nat).
    { intros u I. eapply (pending_added _ _ _ _ _ _ I0 H u r). now left. }
    assert (C : forall u, In r (queue s2 u) -> In r (queue s1 u) \/ (r = next s1 /\ exists src cb ok dcb, l = LAdd u src cb ok dcb)).
    { intros u I. destruct (step_queue _ _ _ _ _ ST u) as [E|[(src & cb & ok & dcb & -> & -> & E)|[(_ & S & _)|(rs & _ & S & _)]]].
      - left. now rewrite <- E.
      - rewrite E in I. apply in_app_iff in I as [I|[<-|[]]]; [now left|]. right. destruct src; [|contradiction]. split; [reflexivity|]. eauto.
      - left. eapply sublist_In; eassumption.
      - left. eapply sublist_In; eassumption. }
    destruct (C v Iv) as [Jv|(Ev & a1 & a2 & a3 & a4 & Lv)]; destruct (C w Iw) as [Jw|(Ew & b1 & b2 & b3 & b4 & Lw)].
    + eauto.
    + apply FRESH in Jv. lia.
    + apply FRESH in Jw. lia.
    + congruence.
Qed.

Lemma isolation local s0 ls es s l s' es' w : initial s0 -> runs local no_sharing s0 ls es s -> no_sharing s l ->
  step local s l = Some (s', es') -> ~ about s l w -> queued s' w = queued s w.
Proof.
  intros I0 H NS ST NA. destruct (step_other _ _ _ _ _ w ST NA) as (Q & _ & _ & HH). unfold queued. rewrite (queue_ext _ _ _ Q).
  apply map_ext_in. intros r I. destruct (HH r) as [E|[(v & N & J)|(v & src & cb & ok & dcb & -> & E)]]; [assumption| |].
  - exfalso. apply N. eapply disjoint_queues; eassumption.
  - destruct src; [|contradiction]. simpl in E. assert (r < next s)%nat by (eapply (pending_added _ _ _ _ _ _ I0 H w r); now left). lia.
Qed.

(** ** C31 *)
Lemma NoDup_map_eq {A B} (f : A -> B) l x y : NoDup (map f l) -> In x l -> In y l -> f x = f y -> x = y.
Proof.
  induction l as [|z l IH]; simpl; [contradiction|]. intros N. inversion N as [|? ? NI ND]; subst. intros [->|Ix] [->|Iy] E; auto.
  - exfalso. apply NI. rewrite E. now apply in_map.
  - exfalso. apply NI. rewrite <- E. now apply in_map.
Qed.

Lemma ids_fixed local s l s' es : step local s l = Some (s', es) -> forall r, (r < next s)%nat -> ev_id (heap s' r) = ev_id (heap s r).
Proof. intros H r L. destruct (step_heap _ _ _ _ _ H r L) as ((E & _) & _). now symmetry. Qed.

Lemma distinct_invariant local s0 ls es s : initial s0 -> runs local distinct_ids s0 ls es s -> forall v, NoDup (map ev_id (queued s v)).
Proof.
  intros I0 H. induction H as [s|s ls es s1 l es1 s2 H IH Pl ST]; intros v.
  - destruct I0 as (_ & Q & _). unfold queued, queue. rewrite Q. constructor.
  - specialize (IH I0 v).
    assert (EQ : forall l, (forall r, In r l -> In r (queue s1 v)) -> map ev_id (map (heap s2) l) = map ev_id (map (heap s1) l)).
    { intros l' K. rewrite !map_map. apply map_ext_in. intros r I. eapply ids_fixed; [exact ST|]. eapply (pending_added _ _ _ _ _ _ I0 H v r). left. auto. }
    unfold queued in *. destruct (step_queue _ _ _ _ _ ST v) as [E|[(src & cb & ok & dcb & -> & -> & E)|[(_ & S & _)|(rs & _ & S & _)]]].
    + rewrite E, EQ by auto. assumption.
    + rewrite E, !map_app, EQ by auto. simpl.
      assert (EI : ev_id (heap s2 (object_of s1 src)) = id_of s1 src).
      { destruct (add_step _ _ _ _ _ _ _ _ _ ST) as (A & _). apply add_cases in A as (_ & _ & _ & _ & [(x & C & _)|(e' & _ & PR & _ & HH & _)]); [discriminate|].
        rewrite HH, upd_same. apply prepare_later in PR as (((E1 & _) & _) & _). rewrite <- E1. now destruct src. }
      rewrite EI. apply (Permutation_NoDup (l := id_of s1 src :: map ev_id (map (heap s1) (queue s1 v)))).
      * apply Permutation_cons_append.
      * constructor; [exact Pl|assumption].
    + rewrite EQ by (intros r I; eapply sublist_In; eassumption). eapply sublist_NoDup; [|exact IH]. now apply sublist_map, sublist_map.
    + rewrite EQ by (intros r I; eapply sublist_In; eassumption). eapply sublist_NoDup; [|exact IH]. now apply sublist_map, sublist_map.
Qed.

Lemma leaves local s0 ls es s l s' es' v r : initial s0 -> runs local distinct_ids s0 ls es s ->
  step local s l = Some (s', es') -> In r (queue s v) -> ~ In r (queue s' v) ->
  (requested_by l v /\ ev_status (heap s' r) = Completed) \/
  (exists rs resp, answers s l v rs /\ In resp rs /\ rs_id resp = ev_id (heap s r) /\ rs_mod resp = SInt (ev_mod (heap s r)) /\
     ev_status (heap s r) = Cancelled).
Proof.
  intros I0 H ST I N. destruct (step_queue _ _ _ _ _ ST v) as [E|[(src & cb & ok & dcb & -> & -> & E)|[(Q & _ & K)|(rs & C & _ & _ & K)]]].
  - rewrite E in N. contradiction.
  - exfalso. apply N. rewrite E. apply in_app_iff. now left.
  - left. split; [assumption|]. destruct (K r I); [contradiction|assumption].
  - right. destruct (K r I N) as (resp & f & IR & E1 & IF & E2 & E3 & E4).
    pose proof (distinct_invariant _ _ _ _ _ I0 H v) as ND. unfold queued in ND. rewrite map_map in ND.
    assert (f = r) by (eapply (NoDup_map_eq (fun r => ev_id (heap s r))); [exact ND|assumption..|]; simpl; congruence). subst f.
    exists rs, resp. repeat split; auto; congruence.
Qed.

(** A request in flight. *)
Definition flight (s : state) (t : nat) (v : scalar) (r : nat) : Prop :=
  match get Nat.eqb t (tasks s) with
  | Some (TDeliver _ w (Snap o) _) => w = v /\ In r o
  | Some (TDeliver _ w Live _) => w = v
  | _ => True
  end.

Lemma flight_step local s l s' es t v r : NoDup (keys (tasks s)) -> step local s l = Some (s', es) -> ~ starts l t -> flight s t v r -> flight s' t v r.
Proof.
  intros ND ST NS F. unfold flight in *. destruct (get Nat.eqb t (tasks s')) as [[p w src i|w rest]|] eqn:G; [|exact I|exact I].
  destruct (proj1 (proj2 (step_tasks _ _ _ _ _ ST ND)) _ _ _ _ _ G) as [(j & G')|(_ & (clock & E) & _)].
  - rewrite G' in F. assumption.
  - exfalso. apply NS. destruct p; subst l; reflexivity.
Qed.

Lemma flight_start local s l s' es t v clock r : NoDup (keys (tasks s)) -> step local s l = Some (s', es) ->
  l = LPoll t v clock \/ l = LRequest t v clock -> In r (queue s v) -> flight s' t v r.
Proof.
  intros ND ST L I. unfold flight. destruct (get Nat.eqb t (tasks s')) as [[p w src i|w rest]|] eqn:G; [|exact Logic.I|exact Logic.I].
  assert (NT : get Nat.eqb t (tasks s) = None).
  { destruct L as [-> | ->]; cbn [step] in ST; (destruct (mem Nat.eqb t (tasks s)) eqn:M; [discriminate|]; now apply mem_false_get). }
  destruct (proj1 (proj2 (step_tasks _ _ _ _ _ ST ND)) _ _ _ _ _ G) as [(j & G')|(_ & (clock' & E) & D)]; [congruence|].
  assert (w = v) by (destruct p, L; subst l; congruence). subst w.
  destruct D as [-> |(o & -> & P)]; [reflexivity|]. split; [reflexivity|]. eapply Permutation_in; eassumption.
Qed.

Lemma flight_run local P s ls es s' t v r : NoDup (keys (tasks s)) -> runs local P s ls es s' -> Forall (fun l => ~ starts l t) ls ->
  flight s t v r -> flight s' t v r.
Proof.
  intros ND H. induction H as [s|s ls es s1 l es1 s2 H IH Pl ST]; intros A F; [assumption|].
  apply Forall_app in A as [A1 A2]. inversion A2; subst. eapply flight_step; [|exact ST|assumption|auto]. eapply runs_nodup_tasks; eassumption.
Qed.

Lemma queue_same s s' v : queues s' = queues s -> queue s' v = queue s v.
Proof. intros H. apply queue_ext. now rewrite H. Qed.

Lemma request_returns local P s0 ls es s t v clock l ls1 es1 s2 l2 s3 es3 rest evs r :
  initial s0 -> runs local P s0 ls es s -> In r (queue s v) -> (l = LPoll t v clock \/ l = LRequest t v clock) ->
  runs local P s ls1 es1 s2 -> step local s2 l2 = Some (s3, es3) -> (ls1 ++ [l2] = l :: rest)%list -> Forall (fun l => ~ starts l t) rest ->
  In (ESent t v evs) es3 -> In r (queue s3 v) -> In (r, heap s3 r) evs.
Proof.
  intros I0 H I L R ST E NS IN I3.
  assert (ND : NoDup (keys (tasks s))) by (eapply runs_nodup_tasks; [exact H|now apply initial_nodup]).
  destruct (step_sent _ _ _ _ _ _ _ _ ST IN) as (_ & EV & D). rewrite EV. apply in_map_iff. exists r. split; [reflexivity|].
  destruct ls1 as [|x ls1].
  - injection E as -> <-. inversion R; subst; [|destruct ls0; discriminate].
    destruct D as [(clock' & _ & _ & _ & [Q|Q])|(p & src & i & -> & _)].
    + now rewrite Q.
    + eapply Permutation_in; eassumption.
    + destruct L; discriminate.
  - injection E as -> <-. apply Forall_app in NS as [NS1 NS2]. inversion NS2 as [|? ? NS3 _]; subst.
    apply runs_cons_inv in R as (sa & ea & eb & _ & S1 & R & _).
    assert (F : flight s2 t v r).
    { eapply flight_run; [|exact R|exact NS1|]; [|eapply flight_start; [exact ND|exact S1|exact L|assumption]].
      exact (proj1 (step_tasks _ _ _ _ _ S1 ND)). }
    destruct D as [(clock' & LL & _)|(p & src & i & -> & G & C & Q)].
    + exfalso. apply NS3. destruct LL; subst l2; reflexivity.
    + unfold flight in F. rewrite G in F. rewrite C. destruct src as [|o]; simpl; [now rewrite <- (queue_same _ _ v Q)|tauto].
Qed.

(** ** C32 *)
Lemma request_updated local tid p v clock s s' es : request_event local tid p v clock s = (s', es) ->
  (updated s' = updated s /\ (p = true -> (forall evs, ~ In (ESent tid v evs) es) /\ ~ In (EEmpty tid v) es)) \/
  (p = true /\ updated s' = set scalar_eqb v false (updated s) /\ ((queue s v = [] /\ es = [EEmpty tid v]) \/ exists evs, es = [ESent tid v evs])).
Proof.
  intros R0. destruct (request_cases local tid p v clock s) as [[Q R]|(NQ & h & Hh & [(e & R & _)|(o & q' & i' & s1 & _ & _ & SUB & IFF & _ & A & B & U & _ & _ & _ & _ & QS & C & _ & R)])]; rewrite R in R0.
  - apply pair_equal_spec in R0 as [<- <-]. destruct p; [right|left]; simpl; auto. split; [reflexivity|]. discriminate.
  - apply pair_equal_spec in R0 as [<- <-]. left. split; [reflexivity|]. intros _. split; [intros evs [I|[]]; discriminate|intros [I|[]]; discriminate].
  - apply deliver_frame in R0 as (_ & _ & _ & _ & _ & _ & _ & _ & [(j & n & id & -> & _ & _ & UU)|(-> & _ & UU)]); rewrite U in UU.
    + left. split; [assumption|]. intros _. split; [intros evs [I|[]]; discriminate|intros [I|[]]; discriminate].
    + destruct p; [right; split; [reflexivity|]; split; [assumption|]; right; eauto|left; split; [assumption|discriminate]].
Qed.

Lemma created_no_empty tid v rs : forall s s' es t w, created_event tid v rs s = (s', es) -> ~ In (EEmpty t w) es.
Proof.
  induction rs as [|r rest IH]; intros s s' es t w H; cbn [created_event] in H.
  - apply pair_equal_spec in H as [_ <-]. intros [I|[]]; discriminate.
  - destruct (get scalar_eqb v (queues s)) as [q|]; [|apply pair_equal_spec in H as [_ <-]; intros [I|[]]; discriminate].
    destruct (find_response (heap s) q r) as [f|]; [|destruct (existsb _ _); apply pair_equal_spec in H as [_ <-]; intros [I|[]]; discriminate].
    destruct (get scalar_eqb (rs_id r) _) as [[n|n]|].
    + apply pair_equal_spec in H as [_ <-]. intros [I|[]]; discriminate.
    + destruct (existsb (Nat.eqb n) _); [eauto|]. destruct (created_event tid v rest _) as [s2 es2] eqn:R. apply pair_equal_spec in H as [_ <-].
      intros [I|I]; [discriminate|]. eapply IH; eassumption.
    + eauto.
Qed.

Lemma step_updated local s l s' es w : step local s l = Some (s', es) ->
  (get scalar_eqb w (updated s') = Some true /\ exists r, update s l es w r) \/
  (get scalar_eqb w (updated s') = get scalar_eqb w (updated s) /\ (forall r, ~ update s l es w r) /\
     (poll_done local s l w -> get scalar_eqb w (updated s) <> Some true)) \/
  (get scalar_eqb w (updated s') = Some false /\ (forall r, ~ update s l es w r) /\ poll_done local s l w /\ get scalar_eqb w (updated s') <> Some true /\
     ((queue s w = [] /\ exists t, es = [EEmpty t w]) \/ exists t evs, es = [ESent t w evs])).
Proof.
  intros H.
  assert (NU : forall r, match l with LAdd _ _ _ _ _ | LCancel _ _ => False | _ => True end -> ~ update s l es w r).
  { intros r K (_ & [(src & cb & ok & dcb & -> & _)|(id & q1 & q2 & -> & _)]); exact K. }
  assert (NP : match l with LPoll _ v _ => v <> w | LResume t _ => forall src i, get Nat.eqb t (tasks s) <> Some (TDeliver true w src i) | _ => True end -> ~ poll_done local s l w).
  { intros K (t & s2 & e2 & _ & [(clock & ->)|(src & i & -> & G)] & _); [now apply K|eapply K; exact G]. }
  pose proof H as H0.
  destruct l as [v src cb ok dcb|v id|tid v clock|tid v clock|tid v rs|tid out|f].
  - apply add_step in H as (A & _). destruct (scalar_eq_dec w v) as [->|N].
    + apply add_cases in A as (_ & _ & _ & _ & [(x & -> & _ & U & _)|(e' & -> & _ & _ & _ & _ & _ & U & _)]); rewrite U.
      * right; left. split; [reflexivity|]. split; [intros r (K & _); discriminate|]. intros K. now apply NP in K.
      * left. rewrite (get_set_same _ scalar_eqb_eq). split; [reflexivity|]. exists (object_of s src). split; [reflexivity|]. left. exists src, cb, ok, dcb. auto.
    + right; left.
      assert (NA : ~ about s (LAdd v src cb ok dcb) w) by (cbn; congruence). destruct (step_other _ _ _ _ _ _ H0 NA) as (_ & U & _).
      split; [assumption|]. split; [|intros K; now apply NP in K].
      intros r (_ & [(a & b & c & d & E & _)|(id & q1 & q2 & E & _)]); [|discriminate]. injection E as <- _ _ _ _. congruence.
  - cbn [step] in H. injection H as <- <-. destruct (cancel_cases v id s) as [[F ->]|(r & F & ->)]; simpl.
    + right; left. split; [reflexivity|]. split; [|intros K; now apply NP in K].
      intros r (_ & [(a & b & c & d & E & _)|(id' & q1 & q2 & E & Q & EI & _)]); [discriminate|]. injection E as <- <-.
      rewrite find_id_none in F. apply (F r); [rewrite Q; apply in_app_iff; right; now left|assumption].
    + destruct (scalar_eq_dec w v) as [->|N].
      * left. rewrite (get_set_same _ scalar_eqb_eq). split; [reflexivity|]. exists r. split; [reflexivity|]. right.
        apply find_id_some in F as (_ & E & q1 & q2 & Q & K). exists id, q1, q2. auto.
      * right; left. rewrite (get_set_other _ scalar_eqb_eq) by assumption. split; [reflexivity|]. split; [|intros K; now apply NP in K].
        intros r' (_ & [(a & b & c & d & E & _)|(id' & q1 & q2 & E & _)]); [discriminate|]. congruence.
  - destruct (scalar_eq_dec w v) as [->|N].
    2:{ right; left. assert (NA : ~ about s (LPoll tid v clock) w) by (cbn; congruence). destruct (step_other _ _ _ _ _ _ H0 NA) as (_ & U & _).
        split; [assumption|]. split; [intros r; now apply NU|]. intros K. exfalso. eapply NP; [|exact K]. congruence. }
    cbn [step] in H. destruct (mem _ _ _); [discriminate|]. injection H as H. unfold poll in H. destruct (get scalar_eqb v (updated s)) as [[]|] eqn:U0.
    + apply request_updated in H as [(U & D)|(_ & U & D)]; rewrite U.
      * right; left. split; [assumption|]. split; [intros r; now apply NU|]. intros (t & s2 & e2 & S2 & PS & ANS). exfalso.
        rewrite H0 in S2. injection S2 as <- <-. destruct PS as [(c & E)|(a & b & E & _)]; [|discriminate]. injection E as <- <-.
        destruct (D eq_refl) as [D1 D2]. destruct ANS as [(evs & ANS)|ANS]; [eapply D1; exact ANS|contradiction].
      * right; right. rewrite (get_set_same _ scalar_eqb_eq). split; [reflexivity|]. split; [intros r; now apply NU|].
        split; [|split; [discriminate|destruct D as [(Q & D)|D]; [left; eauto|right; eauto]]].
        exists tid, s', es. split; [assumption|]. split; [left; eauto|]. destruct D as [(_ & ->)|(evs & ->)]; [right; now left|left; exists evs; now left].
    + apply pair_equal_spec in H as [<- <-]. right; left. rewrite U0. split; [reflexivity|]. split; [intros r; now apply NU|]. congruence.
    + apply pair_equal_spec in H as [<- <-]. right; left. rewrite U0. split; [reflexivity|]. split; [intros r; now apply NU|]. congruence.
  - cbn [step] in H. destruct (mem _ _ _); [discriminate|]. injection H as H. right; left. split; [|split; [intros r; now apply NU|intros K; now apply NP in K]].
    apply request_updated in H as [(-> & _)|(K & _)]; [reflexivity|discriminate].
  - cbn [step] in H. destruct (mem _ _ _); [discriminate|]. injection H as H. right; left. split; [|split; [intros r; now apply NU|intros K; now apply NP in K]].
    apply created_frame in H as (_ & _ & -> & _). reflexivity.
  - cbn [step] in H. destruct (get Nat.eqb tid (tasks s)) as [t|] eqn:G; [|discriminate]. destruct out as [[]|e].
    + destruct t as [p v src i|v rest]; injection H as H.
      * apply deliver_frame in H as (_ & _ & _ & _ & _ & _ & _ & _ & [(j & n & id & -> & _ & _ & UU)|(-> & _ & UU)]).
        -- right; left. rewrite UU. split; [reflexivity|]. split; [intros r; now apply NU|].
           intros (t & s2 & e2 & S2 & _ & ANS). exfalso. rewrite H0 in S2. injection S2 as <- <-. destruct ANS as [(evs & [ANS|[]])|[ANS|[]]]; discriminate.
        -- destruct p.
           ++ destruct (scalar_eq_dec w v) as [->|N].
              ** right; right. rewrite UU, (get_set_same _ scalar_eqb_eq). split; [reflexivity|]. split; [intros r; now apply NU|].
                 split; [|split; [discriminate|right; eauto]].
                 exists tid, s'; eexists. split; [exact H0|]. split; [right; exists src, i; auto|]. left. eexists. now left.
              ** right; left. rewrite UU, (get_set_other _ scalar_eqb_eq) by assumption. split; [reflexivity|]. split; [intros r; now apply NU|].
                 intros K. exfalso. eapply NP; [|exact K]. intros src' i'. congruence.
           ++ right; left. rewrite UU. split; [reflexivity|]. split; [intros r; now apply NU|]. intros K. exfalso. eapply NP; [|exact K]. intros src' i'. congruence.
      * right; left. apply created_frame in H as (_ & _ & -> & _). split; [reflexivity|]. split; [intros r; now apply NU|].
        intros K. exfalso. eapply NP; [|exact K]. intros src' i'. congruence.
    + injection H as <- _. right; left. split; [reflexivity|]. split; [intros r; now apply NU|].
      intros (t' & s2 & e2 & S2 & [(c & E)|(a & b & E & _)] & _); discriminate.
  - cbn [step] in H. injection H as <- _. right; left. split; [reflexivity|]. split; [intros r; now apply NU|intros K; now apply NP in K].
Qed.

(** From an update on, until a poll of the VEN is answered, the flag is set
    and every waiting poll of the VEN has the updated event. *)
Lemma update_pending local s l s' es v r : step local s l = Some (s', es) -> update s l es v r -> In r (queue s' v).
Proof.
  intros ST (-> & [(src & cb & ok & dcb & -> & E)|(id & q1 & q2 & -> & Q & E & _)]).
  - apply add_step in ST as (A & _). apply add_cases in A as (_ & _ & _ & _ & [(x & K & _)|(e' & _ & _ & _ & _ & -> & _)]); [discriminate|].
    rewrite E. apply in_app_iff. right. now left.
  - cbn [step] in ST. injection ST as <-. destruct (cancel_cases v id s) as [[_ ->]|(r' & _ & ->)]; [|change (In r (queue s v))]; rewrite Q; apply in_app_iff; right; now left.
Qed.

Lemma update_next_poll local P s0 ls es s u s1 es1 v r ls' es' s2 l2 s3 es3 :
  initial s0 -> runs local P s0 ls es s -> step local s u = Some (s1, es1) -> update s u es1 v r -> ~ poll_waiting s v ->
  runs local (fun s l => In r (queue s v) /\ ~ poll_done local s l v) s1 ls' es' s2 ->
  step local s2 l2 = Some (s3, es3) -> In r (queue s2 v) -> poll_done local s2 l2 v ->
  exists t evs, es3 = [ESent t v evs] /\ (In r (queue s3 v) -> In (r, heap s3 r) evs).
Proof.
  intros I0 H ST U NW R ST2 IQ PD.
  assert (ND : NoDup (keys (tasks s))) by (eapply runs_nodup_tasks; [exact H|now apply initial_nodup]).
  assert (ND1 : NoDup (keys (tasks s1))) by exact (proj1 (step_tasks _ _ _ _ _ ST ND)).
  assert (INV : get scalar_eqb v (updated s2) = Some true /\ forall t src i, get Nat.eqb t (tasks s2) = Some (TDeliver true v src i) -> flight s2 t v r).
  { clear ST2 PD IQ l2 s3 es3. induction R as [s1|s1 ls1 e1 sa l el sb R IH [IQ NP] STb].
    - split.
      + destruct (step_updated _ _ _ _ _ v ST) as [[A _]|[(_ & K & _)|(_ & K & _)]]; [assumption|exfalso; eapply K; exact U|exfalso; eapply K; exact U].
      + intros t src i G. exfalso. destruct (proj1 (proj2 (step_tasks _ _ _ _ _ ST ND)) _ _ _ _ _ G) as [(j & G')|(_ & (clock & E) & _)].
        * apply NW. exists t, src, j. assumption.
        * destruct U as (_ & [(a & b & c & d & -> & _)|(id & q1 & q2 & -> & _)]); discriminate.
    - destruct (IH ST ND1) as [F A]. assert (NDa : NoDup (keys (tasks sa))) by (eapply runs_nodup_tasks; eassumption). split.
      + destruct (step_updated _ _ _ _ _ v STb) as [[B _]|[(B & _)|(_ & _ & K & _)]]; [assumption|congruence|contradiction].
      + intros t src i G. destruct (proj1 (proj2 (step_tasks _ _ _ _ _ STb NDa)) _ _ _ _ _ G) as [(j & G')|(GN & (clock & E) & _)].
        * specialize (A _ _ _ G'). unfold flight in *. rewrite G' in A. now rewrite G.
        * eapply flight_start; [exact NDa|exact STb|left; exact E|assumption]. }
  destruct INV as [F A].
  destruct (step_updated _ _ _ _ _ v ST2) as [[_ (r' & K)]|[(_ & _ & B)|(_ & _ & _ & _ & [(Q & t & E)|(t & evs & E)])]].
  - exfalso. destruct PD as (t & s' & es9 & _ & PS & _). destruct K as (_ & K). destruct PS as [(clock & ->)|(src & i & -> & _)]; destruct K as [(a & b & c & d & K & _)|(id & q1 & q2 & K & _)]; discriminate.
  - exfalso. now apply B.
  - exfalso. rewrite Q in IQ. contradiction.
  - exists t, evs. split; [assumption|]. intros I3.
    assert (IN : In (ESent t v evs) es3) by (rewrite E; now left).
    destruct (step_sent _ _ _ _ _ _ _ _ ST2 IN) as (_ & EV & D). rewrite EV. apply in_map_iff. exists r. split; [reflexivity|].
    destruct D as [(clock' & _ & _ & _ & [Q|Q])|(p & src & i & -> & G & C & Q)].
    + now rewrite Q.
    + eapply Permutation_in; eassumption.
    + destruct PD as (t' & s' & es'' & _ & [(clock & K)|(src' & i' & K & G')] & _); [discriminate|]. injection K as <-.
      rewrite G in G'. injection G' as -> -> ->.
      specialize (A _ _ _ G). unfold flight in A. rewrite G in A. rewrite C. destruct src' as [|o]; simpl; [now rewrite <- (queue_same _ _ v Q)|tauto].
Qed.

Lemma quiet_poll local s l s1 es1 v ls' es' s2 t clock : step local s l = Some (s1, es1) -> poll_done local s l v ->
  runs local (no_update v) s1 ls' es' s2 -> forall s3 es3, step local s2 (LPoll t v clock) = Some (s3, es3) -> s3 = s2 /\ es3 = [EEmpty t v].
Proof.
  intros ST PD R.
  assert (F : get scalar_eqb v (updated s2) <> Some true).
  { induction R as [s1|s1 ls1 e1 sa l' el sb R IH NU STb].
    - destruct (step_updated _ _ _ _ _ v ST) as [[_ (r' & K)]|[(E & _ & B)|(_ & _ & _ & B & _)]].
      + exfalso. destruct PD as (t' & s' & es'' & _ & PS & _). destruct K as (_ & K). destruct PS as [(c & ->)|(src & i & -> & _)]; destruct K as [(a & b & c' & d & K & _)|(id & q1 & q2 & K & _)]; discriminate.
      + rewrite E. auto.
      + assumption.
    - specialize (IH ST). destruct (step_updated _ _ _ _ _ v STb) as [[_ (r' & _ & K)]|[(E & _)|(_ & _ & _ & B & _)]].
      + exfalso. destruct K as [(a & b & c' & d & -> & _)|(id & q1 & q2 & -> & _)]; now apply NU.
      + now rewrite E.
      + assumption. }
  intros s3 es3 ST3. cbn [step] in ST3. destruct (mem _ _ _); [discriminate|]. injection ST3 as ST3. unfold poll in ST3.
  destruct (get scalar_eqb v (updated s2)) as [[]|]; [congruence|apply pair_equal_spec in ST3 as [<- <-]; auto..].
Qed.
