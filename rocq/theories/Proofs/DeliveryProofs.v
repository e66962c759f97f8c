(** Delivery callbacks (C71). *)
From Coq Require Import ZArith String List Bool Lia Sorting.Permutation.
From Verif.Base Require Import Result Dict PyStr ListExtra.
From Verif.Model Require Import Objects EventTime EventService.
From Verif.Spec Require Import EventSpec QueueSpec DeliverySpec.
From Verif.Proofs Require Import EventTimeProofs QueueProofs QueueHistory QueueLaws.
Import ListNotations.
Local Open Scope Z_scope.

Lemma announced_app K U a ca b cb : announced K U a ca -> announced K U b cb -> announced K U (a ++ b) (ca ++ cb).
Proof. intros A B. induction A; cbn [app]; [exact B|now constructor|now constructor]. Qed.
Lemma announced_weaken (K K' : scalar -> nat -> Prop) (U U' : scalar -> Prop) ids c : (forall id n, K id n -> K' id n) -> (forall id, U id -> U' id) -> announced K U ids c -> announced K' U' ids c.
Proof. intros HK HU A. induction A; [constructor|constructor; auto|constructor; auto]. Qed.
Lemma announced_silent K U ids : Forall U ids -> announced K U ids [].
Proof. intros F. induction F; [constructor|now apply an_skip]. Qed.

Lemma next_delivery_cases h d l : forall i,
  match next_delivery h d l i with
  | Some (j, n, id) => exists a r b, l = (a ++ r :: b)%list /\ j = (i + length a)%nat /\ id = ev_id (h r) /\ get scalar_eqb id d = Some n /\
                       Forall (fun x => get scalar_eqb (ev_id (h x)) d = None) a
  | None => Forall (fun x => get scalar_eqb (ev_id (h x)) d = None) l
  end.
Proof.
  induction l as [|r l IH]; intros i; cbn [next_delivery]; [constructor|]. destruct (get scalar_eqb (ev_id (h r)) d) as [n|] eqn:G.
  - exists [], r, l. cbn. repeat split; [lia|assumption|constructor].
  - specialize (IH (S i)). destruct (next_delivery h d l (S i)) as [[[j n] id]|].
    + destruct IH as (a & r' & b & -> & -> & -> & G' & F). exists (r :: a), r', b. cbn. repeat split; [lia|assumption|now constructor].
    + now constructor.
Qed.

(** Callbacks are never taken away. *)
Lemma request_deliveries local tid p v clock s s' es : request_event local tid p v clock s = (s', es) -> deliveries s' = deliveries s.
Proof.
  intros R0. destruct (request_cases local tid p v clock s) as [[Q R]|(NQ & h & Hh & [(e & R & _)|(o & q' & i' & s1 & _ & _ & _ & _ & _ & _ & _ & _ & _ & D & _ & _ & _ & _ & _ & R)])]; rewrite R in R0.
  - apply pair_equal_spec in R0 as [<- _]. destruct p; reflexivity.
  - apply pair_equal_spec in R0 as [<- _]. reflexivity.
  - apply deliver_frame in R0 as (_ & _ & _ & E & _). congruence.
Qed.
Lemma step_deliveries local s l s' es : step local s l = Some (s', es) ->
  deliveries s' = deliveries s \/ exists v src cb ok n, l = LAdd v src cb ok (Some n) /\ deliveries s' = set scalar_eqb (ev_id (content_of s src)) n (deliveries s).
Proof.
  intros H. destruct l as [v src cb ok dcb|v id|tid v clock|tid v clock|tid v rs|tid out|f]; cbn [step] in H.
  - assert (A : add_raw_event v src cb ok dcb s = (s', es)) by (destruct src; [|destruct (Nat.ltb _ _); [|discriminate]]; congruence).
    apply add_cases in A as (_ & _ & _ & _ & [(x & _ & _ & _ & _ & D & _)|(e' & _ & _ & _ & _ & _ & _ & _ & _ & D)]); [now left|].
    destruct dcb as [n|]; [right; exists v, src, cb, ok, n; auto|now left].
  - injection H as <- _. left. destruct (cancel_cases v id s) as [[_ ->]|(r & _ & ->)]; reflexivity.
  - destruct (mem _ _ _); [discriminate|]. injection H as H. left. unfold poll in H. destruct (get scalar_eqb v (updated s)) as [[]|].
    + now apply request_deliveries in H.
    + apply pair_equal_spec in H as [<- _]. reflexivity.
    + apply pair_equal_spec in H as [<- _]. reflexivity.
  - destruct (mem _ _ _); [discriminate|]. injection H as H. left. now apply request_deliveries in H.
  - destruct (mem _ _ _); [discriminate|]. injection H as H. left. now apply created_frame in H.
  - left. destruct (get Nat.eqb tid (tasks s)) as [[p v src i|v rest]|]; [| |discriminate]; (destruct out as [[]|e]; [|injection H as <- _; reflexivity]); injection H as H.
    + now apply deliver_frame in H.
    + now apply created_frame in H.
  - injection H as <- _. now left.
Qed.
Lemma step_silent local s l s' es id : step local s l = Some (s', es) -> silent s' id -> silent s id.
Proof.
  intros H. unfold silent. destruct (step_deliveries _ _ _ _ _ H) as [-> |(v & src & cb & ok & n & _ & ->)]; [auto|].
  destruct (scalar_eq_dec id (ev_id (content_of s src))) as [->|N]; [now rewrite (get_set_same _ scalar_eqb_eq)|now rewrite (get_set_other _ scalar_eqb_eq)].
Qed.
Lemma serving_silent local t s ls c es s' id : serving local t s ls c es s' -> silent s' id -> silent s id.
Proof. intros H. induction H as [? ? ? ? ? ST|? ? ? ? ? ? ? ? ? IH ? ST]; intros S; [|apply IH]; eapply step_silent; eassumption. Qed.
Lemma serving_runs local t s ls c es s' : serving local t s ls c es s' -> runs local any s ls es s'.
Proof.
  intros H. induction H; [eapply runs_one; [exact I|eassumption]|]. econstructor; [eassumption|exact I|eassumption].
Qed.

(** Other steps leave the request where it is. *)
Lemma step_keeps local s l s' es t k : step local s l = Some (s', es) -> get Nat.eqb t (tasks s) = Some k -> part_of t l = false -> get Nat.eqb t (tasks s') = Some k.
Proof.
  intros H G N. destruct l as [v src cb ok dcb|v id|tid v clock|tid v clock|tid v rs|tid out|f]; cbn [step part_of] in H, N; try apply Nat.eqb_neq in N.
  - assert (A : add_raw_event v src cb ok dcb s = (s', es)) by (destruct src; [|destruct (Nat.ltb _ _); [|discriminate]]; congruence).
    apply add_cases in A as (_ & _ & _ & T & _). now rewrite T.
  - injection H as <- _. destruct (cancel_cases v id s) as [[_ ->]|(r & _ & ->)]; exact G.
  - destruct (mem _ _ _) eqn:M; [discriminate|]. injection H as H. unfold poll in H. destruct (get scalar_eqb v (updated s)) as [[]|].
    + destruct (request_cases local tid true v clock s) as [[Q R]|(_ & h & Hh & [(e & R & _)|(o & q' & i' & s1 & _ & _ & _ & _ & _ & _ & _ & _ & _ & _ & _ & T & _ & _ & _ & R)])]; rewrite R in H.
      * apply pair_equal_spec in H as [<- _]. exact G.
      * apply pair_equal_spec in H as [<- _]. exact G.
      * apply deliver_frame in H as (_ & _ & _ & _ & _ & _ & _ & O & _). rewrite O by auto. now rewrite T.
    + apply pair_equal_spec in H as [<- _]. exact G.
    + apply pair_equal_spec in H as [<- _]. exact G.
  - destruct (mem _ _ _) eqn:M; [discriminate|]. injection H as H.
    destruct (request_cases local tid false v clock s) as [[Q R]|(_ & h & Hh & [(e & R & _)|(o & q' & i' & s1 & _ & _ & _ & _ & _ & _ & _ & _ & _ & _ & _ & T & _ & _ & _ & R)])]; rewrite R in H.
    + apply pair_equal_spec in H as [<- _]. exact G.
    + apply pair_equal_spec in H as [<- _]. exact G.
    + apply deliver_frame in H as (_ & _ & _ & _ & _ & _ & _ & O & _). rewrite O by auto. now rewrite T.
  - destruct (mem Nat.eqb tid (tasks s)) eqn:M; [discriminate|]. injection H as H. apply created_frame in H as (_ & _ & _ & _ & _ & _ & O & _).
    rewrite O; [exact G|]. intros ->. unfold mem in M. rewrite G in M. discriminate.
  - destruct (get Nat.eqb tid (tasks s)) as [[p v src i|v rest]|]; [| |discriminate]; (destruct out as [[]|e]; [|injection H as <- _; cbn; rewrite (get_del_other _ Nat.eqb_eq); auto]); injection H as H.
    + apply deliver_frame in H as (_ & _ & _ & _ & _ & _ & _ & O & _). rewrite O; auto.
    + apply created_frame in H as (_ & _ & _ & _ & _ & _ & O & _). rewrite O; auto.
  - injection H as <- _. exact G.
Qed.

(** ** One request that delivers a list of its own *)
Section Several.
Context (local : Z -> Z) (t : nat) (v : scalar) (src : source) (o : list nat) (name : nat -> scalar).

(** Where the request is: waiting at position [i], or at its end. *)
Definition progress (K : scalar -> nat -> Prop) (U : scalar -> Prop) (c : list (nat * scalar)) (es : list effect) (s : state) : Prop :=
  (exists p i, get Nat.eqb t (tasks s) = Some (TDeliver p v src i) /\ (i < length o)%nat /\ announced K U (map name (firstn (S i) o)) c /\ forall w evs, ~ In (ESent t w evs) es) \/
  (get Nat.eqb t (tasks s) = None /\ forall w evs, In (ESent t w evs) es -> w = v /\ map fst evs = o /\ ids_of evs = map name o /\ announced K U (map name o) c).

(** The delivery loop from position [i] on. *)
Lemma deliver_progress (K : scalar -> nat -> Prop) (U : scalar -> Prop) p i c s s' es : deliver t p v src i s = (s', es) -> contents s v src = o -> NoDup (keys (tasks s)) ->
  (forall r, In r o -> ev_id (heap s r) = name r) -> (forall id n, informs s id n -> K id n) -> (forall id, silent s id -> U id) ->
  announced K U (map name (firstn i o)) c -> (i <= length o)%nat -> progress K U (c ++ delivered es) es s'.
Proof.
  intros D CO ND NM HK HU A L. unfold deliver in D. rewrite CO in D.
  pose proof (next_delivery_cases (heap s) (deliveries s) (skipn i o) i) as C.
  assert (SK : forall x, In x (skipn i o) -> In x o) by (intros x I; rewrite <- (firstn_skipn i o); apply in_or_app; now right).
  destruct (next_delivery (heap s) (deliveries s) (skipn i o) i) as [[[j n] id]|].
  - destruct C as (a & r & b & E & -> & -> & G & F). apply pair_equal_spec in D as [<- <-]. left. exists p, (i + length a)%nat. cbn [tasks with_tasks].
    rewrite (get_set_same _ Nat.eqb_eq). split; [reflexivity|].
    assert (EO : o = (firstn i o ++ a ++ r :: b)%list) by (rewrite <- E; symmetry; apply firstn_skipn).
    assert (LF : length (firstn i o) = i) by (rewrite firstn_length; lia).
    split; [rewrite EO at 1; rewrite !app_length, LF; cbn; lia|]. split; [|intros w evs [X|[]]; discriminate].
    replace (firstn (S (i + length a)) o) with (firstn i o ++ a ++ [r])%list.
    2:{ transitivity (firstn (S (i + length a)) (firstn i o ++ a ++ r :: b)%list); [|now rewrite <- EO]. symmetry.
        replace (S (i + length a)) with (length (firstn i o) + (length a + 1))%nat by lia. rewrite firstn_app_2. f_equal. rewrite firstn_app_2. reflexivity. }
    rewrite !map_app. apply announced_app; [exact A|]. change (delivered [EDelivery n (ev_id (heap s r))]) with ([] ++ [(n, ev_id (heap s r))])%list.
    apply announced_app.
    + apply announced_silent. apply Forall_map. rewrite Forall_forall in F |- *. intros x I. rewrite <- NM; [apply HU, F, I|]. apply SK. rewrite E. apply in_or_app. now left.
    + rewrite NM in *; [|apply SK; rewrite E; apply in_or_app; right; now left..]. cbn [map]. apply an_call; [now apply HK|constructor].
  - right.
    assert (T : get Nat.eqb t (tasks s') = None /\ es = [ESent t v (map (fun r => (r, heap s r)) o)]).
    { destruct p; apply pair_equal_spec in D as [<- <-]; cbn [tasks with_tasks with_updated heap]; (split; [now apply (get_del_same _ Nat.eqb_eq)|reflexivity]). }
    destruct T as [T ->]. split; [exact T|]. intros w evs [X|[]]. injection X as <- <-. split; [reflexivity|]. split; [apply map_fst_pair|].
    split; [unfold ids_of; rewrite map_map; apply map_ext_in; exact NM|]. cbn [delivered flat_map]. rewrite app_nil_r. rewrite <- (firstn_skipn i o), map_app, <- (app_nil_r c). apply announced_app; [exact A|].
    apply announced_silent. apply Forall_map. rewrite Forall_forall in C |- *. intros x I. rewrite <- NM by (now apply SK). now apply HU, C.
Qed.

Lemma progress_weaken (K K' : scalar -> nat -> Prop) (U U' : scalar -> Prop) c es s : (forall id n, K id n -> K' id n) -> (forall id, U id -> U' id) -> progress K U c es s -> progress K' U' c es s.
Proof.
  intros HK HU [(p & i & G & L & A & N)|(G & H)]; [left; exists p, i; repeat split; auto; eapply announced_weaken; eassumption|right; split; [exact G|]].
  intros w evs I. destruct (H w evs I) as (A & B & C & D). repeat split; auto. eapply announced_weaken; eassumption.
Qed.

Lemma progress_step (K : scalar -> nat -> Prop) (U : scalar -> Prop) c es s l es1 s' : step local s l = Some (s', es1) -> contents s v src = o -> ~ starts l t -> NoDup (keys (tasks s)) ->
  (forall r, In r o -> ev_id (heap s r) = name r) -> (forall id n, informs s id n -> K id n) -> (forall id, silent s id -> U id) ->
  progress K U c es s -> progress K U (c ++ if part_of t l then delivered es1 else []) (es ++ es1) s'.
Proof.
  intros ST CO NS ND NM HK HU [(p & i & G & L & A & N)|(G & H)].
  - destruct (part_of t l) eqn:P.
    + destruct l as [| |t' w clock|t' w clock| |t' out|]; try discriminate P; cbn [part_of] in P; apply Nat.eqb_eq in P as ->; try (exfalso; apply NS; reflexivity).
      cbn [step] in ST. rewrite G in ST. destruct out as [[]|e].
      * injection ST as ST. pose proof (deliver_progress K U p (S i) c s s' es1 ST CO ND NM HK HU A L) as [(p' & i' & G' & L' & A' & N')|(G' & H')].
        -- left. exists p', i'. repeat split; auto. intros w evs I. apply in_app_or in I as [I|I]; [now apply N in I|now apply N' in I].
        -- right. split; [exact G'|]. intros w evs I. apply in_app_or in I as [I|I]; [now apply N in I|now apply H'].
      * injection ST as <- <-. right. cbn [tasks with_tasks]. split; [now apply (get_del_same _ Nat.eqb_eq)|].
        intros w evs I. apply in_app_or in I as [I|[I|[]]]; [now apply N in I|discriminate].
    + left. exists p, i. rewrite app_nil_r. split; [eapply step_keeps; eassumption|]. split; [exact L|]. split; [exact A|].
      intros w evs I. apply in_app_or in I as [I|I]; [now apply N in I|]. destruct (step_sent _ _ _ _ _ _ _ _ ST I) as (_ & _ & [(clock & [-> | ->] & _)|(p' & src' & j & -> & _)]); cbn in P; rewrite Nat.eqb_refl in P; discriminate.
  - assert (T : get Nat.eqb t (tasks s') = None) by (apply (proj2 (proj2 (step_tasks _ _ _ _ _ ST ND)) t G NS)).
    assert (E : (if part_of t l then delivered es1 else []) = []).
    { destruct (part_of t l) eqn:P; [|reflexivity]. destruct l as [| |t' w clock|t' w clock| |t' out|]; try discriminate P; cbn [part_of] in P; apply Nat.eqb_eq in P as ->; try (exfalso; apply NS; reflexivity).
      cbn [step] in ST. rewrite G in ST. discriminate. }
    rewrite E, app_nil_r. right. split; [exact T|]. intros w evs I. apply in_app_or in I as [I|I]; [now apply H|].
    exfalso. destruct (step_sent _ _ _ _ _ _ _ _ ST I) as (_ & _ & [(clock & [-> | ->] & _)|(p' & src' & j & -> & G' & _)]); [apply NS; reflexivity|apply NS; reflexivity|congruence].
Qed.
End Several.

Lemma ids_kept local s ls es s' r : runs local any s ls es s' -> (r < next s)%nat -> ev_id (heap s' r) = ev_id (heap s r).
Proof. intros R L. destruct (runs_heap _ _ _ _ _ _ R r L) as [(E & _) _]. now symmetry. Qed.
Lemma informed_more local t s ls l id n : informed_during local t s ls id n -> informed_during local t s (ls ++ [l]) id n.
Proof. intros (ls1 & ls2 & c & es & s1 & -> & S & I). exists ls1, (ls2 ++ [l])%list, c, es, s1. rewrite <- app_assoc. auto. Qed.

(** The start of the request. *)
Lemma serving_start local t v s l es s1 clock : l = LPoll t v clock \/ l = LRequest t v clock -> step local s l = Some (s1, es) -> starts l t -> NoDup (keys (tasks s)) ->
  (exists e, get Nat.eqb t (tasks s1) = None /\ es = [e] /\ forall w evs, e <> ESent t w evs) \/
  exists o s0 p, Permutation (queue s v) o /\ (forall r, later (heap s r) (heap s0 r)) /\ deliveries s0 = deliveries s /\ tasks s0 = tasks s /\
    (forall r, In r (queue s0 v) -> In r (queue s v)) /\ deliver t p v (if is_single (queue s v) then Live else Snap o) 0 s0 = (s1, es).
Proof.
  intros F ST NS ND.
  assert (B : exists p, (request_event local t p v clock s = (s1, es) \/ (s1 = s /\ es = [EEmpty t v])) /\ mem Nat.eqb t (tasks s) = false).
  { destruct F as [-> | ->]; cbn [step] in ST; (destruct (mem _ _ _); [discriminate|]); injection ST as ST.
    - unfold poll in ST. exists true. split; [|reflexivity]. destruct (get scalar_eqb v (updated s)) as [[]|]; [now left| |]; right; apply pair_equal_spec in ST as [<- <-]; split; reflexivity.
    - exists false. split; [now left|reflexivity]. }
  destruct B as (p & B & M). apply mem_false_get in M.
  destruct B as [B|(-> & ->)]; [|left; exists (EEmpty t v); repeat split; [exact M|discriminate]].
  destruct (request_cases local t p v clock s) as [[Q R]|(_ & h & Hh & [(e & R & _)|(o & q' & i' & s0 & O & PM & SUB & _ & _ & A & N & _ & _ & D & _ & T & QS & _ & _ & R)])]; rewrite R in B.
  - apply pair_equal_spec in B as [<- <-]. left. exists (EEmpty t v). split; [destruct p; exact M|]. split; [reflexivity|discriminate].
  - apply pair_equal_spec in B as [<- <-]. left. exists (EFail t v e). split; [exact M|]. split; [reflexivity|discriminate].
  - right. exists o, s0, p. split; [exact PM|]. split; [intros r; rewrite A, Hh; apply refresh_refs_le|]. split; [exact D|]. split; [exact T|]. split; [|exact B].
    intros r. assert (Q1 : queue s0 v = q') by (apply queue_get; rewrite QS; now rewrite (get_set_same _ scalar_eqb_eq)). rewrite Q1. now apply sublist_In.
Qed.
Lemma first_progress local t v s l es s1 o s0 p src : starts l t -> step local s l = Some (s1, es) -> NoDup (keys (tasks s)) -> (forall r, later (heap s r) (heap s0 r)) -> deliveries s0 = deliveries s -> tasks s0 = tasks s ->
  deliver t p v src 0 s0 = (s1, es) -> contents s0 v src = o -> progress t v src o (fun r => ev_id (heap s r)) (informed_during local t s [l]) (silent s) (delivered es) es s1.
Proof.
  intros NS ST ND HL D T B CO. change (delivered es) with ([] ++ delivered es)%list.
  assert (INF : forall id n, informs s0 id n -> informed_during local t s [l] id n).
  { intros id n I. exists [l], [], (delivered es), es, s1. split; [reflexivity|]. split; [now constructor|]. unfold informs in *. apply deliver_frame in B as (_ & _ & _ & DD & _). now rewrite DD. }
  eapply deliver_progress; [exact B|exact CO|now rewrite T|intros r _; destruct (HL r) as [(E & _) _]; now symmetry|exact INF|intros id I; unfold silent in *; now rewrite D in I|constructor|lia].
Qed.
Lemma first_label {A} (ls : list A) l x rest : ls <> [] -> (ls ++ [l])%list = x :: rest -> exists rest', ls = x :: rest'.
Proof. destruct ls; [congruence|]. intros _ E. injection E as -> _. eauto. Qed.
Lemma serving_nonempty local t s ls c es s' : serving local t s ls c es s' -> ls <> [].
Proof. intros H. destruct H; [discriminate|]. destruct ls; discriminate. Qed.

(** The request works through a permutation of the queue, element by element. *)
Lemma serving_progress local t v s : (1 < length (queue s v))%nat -> (forall r, In r (queue s v) -> (r < next s)%nat) -> NoDup (keys (tasks s)) ->
  forall ls c es s', serving local t s ls c es s' -> (exists clock rest, ls = LPoll t v clock :: rest \/ ls = LRequest t v clock :: rest) ->
  exists o, Permutation (queue s v) o /\ progress t v (Snap o) o (fun r => ev_id (heap s r)) (informed_during local t s ls) (silent s) c es s'.
Proof.
  intros TWO LT ND ls c es s' H. induction H as [s l es s1 NS ST|s ls c es s1 l es1 s2 H IH NS ST]; intros (clock & rest & F).
  - destruct (serving_start local t v s l es s1 clock) as [(e & T & -> & N)|(o & s0 & p & PM & HL & D & T & _ & B)]; [destruct F as [F|F]; injection F as -> _; auto|exact ST|exact NS|exact ND| |].
    + exists (queue s v). split; [apply Permutation_refl|]. right. split; [exact T|]. intros w evs [I|[]]. now apply N in I.
    + replace (is_single (queue s v)) with false in B by (destruct (queue s v) as [|x [|y q]]; [cbn in TWO; lia|cbn in TWO; lia|reflexivity]).
      exists o. split; [exact PM|]. eapply first_progress; try eassumption. reflexivity.
  - assert (F' : exists clock rest, ls = LPoll t v clock :: rest \/ ls = LRequest t v clock :: rest).
    { destruct F as [F|F]; (apply first_label in F as (rest' & ->); [eauto|eapply serving_nonempty; eassumption]). }
    destruct (IH TWO LT ND F') as (o & PM & PR). exists o. split; [exact PM|].
    assert (R : runs local any s ls es s1) by (eapply serving_runs; eassumption).
    eapply progress_step; [exact ST|reflexivity|exact NS|eapply runs_nodup_tasks; eassumption| | | |].
    + intros r I. eapply ids_kept; [exact R|]. apply LT. eapply Permutation_in; [symmetry; exact PM|exact I].
    + intros id n I. exists ls, [l], c, es, s1. auto.
    + intros id. now apply (serving_silent local t s ls c es s1).
    + eapply progress_weaken; [| |exact PR]; [intros id n; apply informed_more|auto].
Qed.

(** With a single event, as long as the queue of the VEN stays as it is. *)
Lemma calm_queue local s l s' es t v : step local s l = Some (s', es) -> ~ starts l t -> NoDup (keys (tasks s)) ->
  (exists p src i, get Nat.eqb t (tasks s) = Some (TDeliver p v src i)) \/ get Nat.eqb t (tasks s) = None ->
  part_of t l = true \/ ~ about s l v -> queue s' v = queue s v.
Proof.
  intros ST NS ND G [P|N].
  - destruct l as [| |t' w clock|t' w clock| |t' out|]; try discriminate P; cbn [part_of] in P; apply Nat.eqb_eq in P as ->; try (exfalso; apply NS; reflexivity).
    cbn [step] in ST. destruct G as [(p & src & i & G)|G]; rewrite G in ST; [|discriminate]. destruct out as [[]|e].
    + injection ST as ST. apply deliver_frame in ST as (_ & _ & _ & _ & Q & _). now apply queue_ext; rewrite Q.
    + injection ST as <- _. reflexivity.
  - apply queue_ext. now apply (step_other _ _ _ _ _ v ST N).
Qed.
Lemma serving_single local t v s r0 : queue s v = [r0] -> (r0 < next s)%nat -> NoDup (keys (tasks s)) ->
  forall ls c es s', serving local t s ls c es s' -> (exists clock rest, ls = LPoll t v clock :: rest \/ ls = LRequest t v clock :: rest) -> calm local t v s ls ->
  exists o, (forall r, In r o -> r = r0) /\ queue s' v = o /\ progress t v Live o (fun r => ev_id (heap s r)) (informed_during local t s ls) (silent s) c es s'.
Proof.
  intros ONE LT ND ls c es s' H. induction H as [s l es s1 NS ST|s ls c es s1 l es1 s2 H IH NS ST]; intros (clock & rest & F) CALM.
  - destruct (serving_start local t v s l es s1 clock) as [(e & T & -> & N)|(o & s0 & p & PM & HL & D & T & SUB & B)]; [destruct F as [F|F]; injection F as -> _; auto|exact ST|exact NS|exact ND| |].
    + exists (queue s1 v). split; [|split; [reflexivity|right; split; [exact T|intros w evs [I|[]]; now apply N in I]]].
      assert (SUB : forall r, In r (queue s1 v) -> In r (queue s v)).
      { intros r I. destruct (step_queue _ _ _ _ _ ST v) as [E|[(src & cb & ok & dcb & -> & _)|[(_ & S & _)|(rs & (tid & [-> |[-> _]]) & _)]]]; [now rewrite <- E| | | |];
        try (destruct F as [F|F]; discriminate F). eapply sublist_In; eassumption. }
      intros r I. apply SUB in I. rewrite ONE in I. destruct I as [I|[]]. now symmetry.
    + rewrite ONE in B. cbn [is_single] in B. exists (queue s0 v). split; [intros r I; apply SUB in I; rewrite ONE in I; destruct I as [I|[]]; now symmetry|].
      split; [apply deliver_frame in B as (_ & _ & _ & _ & Q & _); now apply queue_ext; rewrite Q|]. eapply first_progress; try eassumption. reflexivity.
  - assert (F' : exists clock rest, ls = LPoll t v clock :: rest \/ ls = LRequest t v clock :: rest).
    { destruct F as [F|F]; (apply first_label in F as (rest' & ->); [eauto|eapply serving_nonempty; eassumption]). }
    assert (CALM' : calm local t v s ls).
    { intros ls1 k ls2 c1 es2 s3 E. apply (CALM ls1 k (ls2 ++ [l])%list c1 es2 s3). now rewrite E, <- app_assoc. }
    destruct (IH ONE LT ND F' CALM') as (o & SUB & Q & PR). exists o. split; [exact SUB|].
    assert (R : runs local any s ls es s1) by (eapply serving_runs; eassumption).
    assert (ND1 : NoDup (keys (tasks s1))) by (eapply runs_nodup_tasks; eassumption).
    split.
    + rewrite <- Q. eapply calm_queue; [exact ST|exact NS|exact ND1| |exact (CALM ls l [] c es s1 eq_refl H)].
      destruct PR as [(p & i & G & _)|(G & _)]; [left; eauto|now right].
    + eapply progress_step; [exact ST|exact Q|exact NS|exact ND1| | | |].
      * intros r I. eapply ids_kept; [exact R|]. now rewrite (SUB r I).
      * intros id n I. exists ls, [l], c, es, s1. auto.
      * intros id. now apply (serving_silent local t s ls c es s1).
      * eapply progress_weaken; [| |exact PR]; [intros id n; apply informed_more|auto].
Qed.

Lemma no_new_deliveries local t s ls c es s' : serving local t s ls c es s' -> Forall no_new_callback ls -> deliveries s' = deliveries s.
Proof.
  intros H. induction H as [s l es s1 NS ST|s ls c es s1 l es1 s2 H IH NS ST]; intros F.
  - destruct (step_deliveries _ _ _ _ _ ST) as [E|(v & src & cb & ok & n & -> & _)]; [exact E|]. inversion F as [|? ? N]. destruct N.
  - apply Forall_app in F as [F1 F2]. rewrite <- (IH F1). destruct (step_deliveries _ _ _ _ _ ST) as [E|(v & src & cb & ok & n & -> & _)]; [exact E|]. inversion F2 as [|? ? N]. destruct N.
Qed.
