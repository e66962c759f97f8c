(** C24-C27: event status, active periods and the order of events. *)
From Coq Require Import ZArith String List Bool Lia Sorting.Sorted Sorting.Permutation.
From Verif.Base Require Import Result Dict PyStr ListExtra.
From Verif.Model Require Import Objects EventTime.
From Verif.Spec Require Import EventSpec.
From Verif.Proofs Require Import EventTimeProofs.
Import ListNotations.
Local Open Scope string_scope.
Local Open Scope Z_scope.

(** ** C24 *)
Theorem C24_status : forall local now p t st, starts_at local (ap_start p) t ->
  ((exists p', determine_event_status local now p = (st, p')) <-> implied t (ap_duration p) (ap_ramp_up p) now st).
Proof.
  intros local now p t st T. apply starts_aware in T. subst t. pose proof (determine_implied local now p) as I. split.
  - intros (p' & E). rewrite E in I. exact I.
  - intros H. exists (snd (determine_event_status local now p)). rewrite (implied_fun _ _ _ _ _ _ H I). now destruct (determine_event_status local now p).
Qed.

(** The stored start becomes the aware one; nothing else is touched. *)
Theorem C24_period : forall local now p t, starts_at local (ap_start p) t ->
  exists st p', determine_event_status local now p = (st, p') /\ ap_start p' = Aware t /\
    ap_duration p' = ap_duration p /\ ap_ramp_up p' = ap_ramp_up p /\
    ap_notification p' = ap_notification p /\ ap_recovery p' = ap_recovery p.
Proof.
  intros local now p t T. apply starts_aware in T. subst t. pose proof (determine_period local now p) as P.
  destruct (determine_event_status local now p) as [st p']. simpl in P. subst p'. exists st, (normalised local p). repeat split.
Qed.

(** Forward only: also across the conversion of a naive start. *)
Theorem C24_forward : forall local now now' p st p' st' p'', now <= now' ->
  determine_event_status local now p = (st, p') ->
  determine_event_status local now' p' = (st', p'') -> (rank st <= rank st')%nat.
Proof.
  intros local now now' p st p' st' p'' L H H'.
  pose proof (determine_implied local now p) as I. pose proof (determine_period local now p) as P. rewrite H in I, P. simpl in I, P. subst p'.
  pose proof (determine_implied local now' (normalised local p)) as I'. rewrite H' in I'. simpl in I'.
  change (aware_start local (normalised local p)) with (aware_start local p) in I'.
  destruct I, I'; simpl; try lia; subst;
    repeat match goal with
    | H : Some _ = Some _ |- _ => injection H as <-
    | H : ap_ramp_up p = Some ?r, H' : forall x, ap_ramp_up p = Some x -> _ |- _ => specialize (H' r H)
    | H : 0 < ?d -> _, H' : 0 < ?d |- _ => specialize (H H')
    end; lia.
Qed.

Theorem C24_completes : forall local p, 0 < ap_duration p ->
  exists t, forall now, t <= now <-> fst (determine_event_status local now p) = Completed.
Proof.
  intros local p D. exists (aware_start local p + ap_duration p). intros now. pose proof (determine_implied local now p) as I. split; intros H.
  - eapply implied_fun; [exact I|]. now apply imp_completed.
  - rewrite H in I. now inversion I.
Qed.

Example C24_example :
  let p := mk_ap (Naive 100) 50 None (Some 20) None in
  map (fun now => fst (determine_event_status (fun w => w - 10) now p)) [69; 70; 89; 90; 139; 140] =
  [Far; Near; Near; Active; Active; Completed].
Proof. reflexivity. Qed.

(** ** C25 *)
Theorem C25_covers : forall l : list (Z * Z), l <> [] ->
  exists s d, get_active_period_from_intervals (map (fun p => (Aware (fst p), snd p)) l) = Ok (Aware s, d) /\ covering l s (s + d).
Proof.
  intros l NE. apply active_period_spec; try reflexivity.
  - intros a b E. now injection E.
  - intros w d I. apply in_map_iff in I as ([t d'] & E & _). injection E as <- _. eauto.
  - destruct l; [congruence|discriminate].
  - rewrite map_map. simpl. rewrite <- (map_id l) at 2. apply map_ext. now intros [].
Qed.

Theorem C25_empty : get_active_period_from_intervals [] = Raise IndexError.
Proof. reflexivity. Qed.

Theorem C25_unique : forall l s e s' e', covering l s e -> covering l s' e' -> s = s' /\ e = e'.
Proof. exact covering_fun. Qed.

(** Period per signal first, then over the signals (server.py:296-298). *)
Theorem C25_per_signal : forall signals : list (list (Z * Z)), signals <> [] -> (forall l, In l signals -> l <> []) ->
  let aware := map (fun p : Z * Z => (Aware (fst p), snd p)) in
  bind (mapM (fun l => get_active_period_from_intervals (aware l)) signals) get_active_period_from_intervals
  = get_active_period_from_intervals (aware (concat signals)).
Proof.
  intros signals NE NES aware.
  assert (P : exists ps, mapM (fun l => get_active_period_from_intervals (aware l)) signals = Ok (aware ps) /\
              Forall2 (fun l p => covering l (fst p) (fst p + snd p)) signals ps).
  { clear NE. induction signals as [|l ls IH]; [exists []; split; [reflexivity|constructor]|].
    destruct IH as (ps & E & F); [intros; apply NES; now right|].
    destruct (C25_covers l) as (s & d & G & C); [apply NES; now left|].
    exists ((s, d) :: ps). split; [|constructor; assumption].
    unfold aware in *. simpl. rewrite G, E. reflexivity. }
  destruct P as (ps & E & F). rewrite E. cbn [bind].
  destruct (C25_covers ps) as (s & d & G & C).
  { destruct F; [congruence|discriminate]. }
  destruct (C25_covers (concat signals)) as (s' & d' & G' & C').
  { destruct signals as [|l ls]; [congruence|]. simpl. specialize (NES l (or_introl eq_refl)). destruct l; [congruence|discriminate]. }
  unfold aware. rewrite G, G'.
  assert (X : covering (concat signals) s (s + d)).
  { destruct C as ((dd & I) & (a & b & J & Eab) & M).
    assert (FW : forall p, In p ps -> exists l, In l signals /\ covering l (fst p) (fst p + snd p)).
    { clear - F. induction F as [|x y l m H F IH]; [intros p []|]. intros p [<-|K]; [exists x; split; [now left|assumption]|].
      destruct (IH p K) as (l' & ? & ?). exists l'. split; [now right|assumption]. }
    assert (BW : forall l, In l signals -> exists p, In p ps /\ covering l (fst p) (fst p + snd p)).
    { clear - F. induction F as [|x y l m H F IH]; [intros p []|]. intros p [<-|K]; [exists y; split; [now left|assumption]|].
      destruct (IH p K) as (l' & ? & ?). exists l'. split; [now right|assumption]. }
    split; [|split].
    - destruct (FW _ I) as (l & Il & ((d0 & I0) & _)). exists d0. apply in_concat. eauto.
    - destruct (FW _ J) as (l & Il & (_ & (a0 & b0 & J0 & E0) & _)). exists a0, b0. split; [apply in_concat; eauto|]. simpl in E0. lia.
    - intros s1 d1 K. apply in_concat in K as (l & Il & K). destruct (BW l Il) as ([ps' pd'] & Ip & (_ & _ & M0)).
      specialize (M _ _ Ip). specialize (M0 _ _ K). simpl in M0. lia. }
  destruct (covering_fun _ _ _ _ _ X C') as [-> E2]. repeat f_equal. lia.
Qed.

(** Naive starts work the same way as long as there are no others; a mixture
    is an error. *)
Theorem C25_mixed : forall l a da b db, In (Aware a, da) l -> In (Naive b, db) l ->
  get_active_period_from_intervals l = Raise TypeError.
Proof.
  intros l a da b db IA IB. destruct l as [|[w d] r]; [contradiction|]. simpl.
  rewrite min_when_mixed; [reflexivity|]. destruct w.
  - exists (Naive b). split; [|reflexivity]. destruct IB as [E|I]; [discriminate|]. apply in_map_iff. now exists (Naive b, db).
  - exists (Aware a). split; [|reflexivity]. destruct IA as [E|I]; [discriminate|]. apply in_map_iff. now exists (Aware a, da).
Qed.

Example C25_example :
  get_active_period_from_intervals [(Aware 100, 10); (Aware 90, 15); (Aware 105, 2)] = Ok (Aware 90, 20).
Proof. reflexivity. Qed.

(** ** C26 *)

(** The events [l'] are the events [l] with the statuses of the moment. *)
Definition all_refreshed (local : Z -> Z) (clock : nat -> Z * Z) (l l' : list event) : Prop :=
  length l' = length l /\
  forall n e, nth_error l n = Some e ->
    exists e', nth_error l' n = Some e' /\ refreshed local (fst (clock n)) (snd (clock n)) e e'.

(** Events for which ordering does not have to compare naive starts: every
    cancelled event has an aware start (the others are given one). *)
Definition startable (l : list event) : Prop :=
  forall e, In e l -> ev_status e <> Cancelled \/ has_aware_start e.

Definition C26_full_order : Prop :=
  forall local clock l, startable l ->
    exists l' r, order_events local clock (ManyEvents l) None None = Ok (Some r) /\
      all_refreshed local clock l l' /\ Permutation l' r /\ StronglySorted openadr_before r.

Definition C26_full_slice : Prop :=
  forall local clock l limit offset, startable l ->
    exists ordered, order_events local clock (ManyEvents l) None None = Ok (Some ordered) /\
      order_events local clock (ManyEvents l) limit offset = Ok (Some (slice limit offset ordered)).

Definition sample (id : string) (prio start : Z) : event :=
  mk_ev (mk_ed (SStr id) 0 "oadr://ctx" Far 0 0 (Some prio) false None) [] None None
        (mk_ap (Aware start) 100 None None None) "always".

Theorem C26_order_refuted : ~ C26_full_order.
Proof.
  intros H. destruct (H (fun w => w) (fun _ => (50, 50)) [sample "low" 2 10; sample "high" 1 20]) as (l' & r & O & _ & _ & S).
  - intros e [<-|[<-|[]]]; left; discriminate.
  - vm_compute in O. injection O as <-. inversion S as [|? ? _ F]; subst. inversion F as [|? ? B _]; subst.
    destruct B as [[_ N]|[(_ & _ & [P|[P _]])|[N _]]].
    + now apply N.
    + vm_compute in P. discriminate.
    + apply P. vm_compute. reflexivity.
    + now apply N.
Qed.

Theorem C26_slice_refuted : ~ C26_full_slice.
Proof.
  intros H. destruct (H (fun w => w) (fun _ => (50, 50)) [sample "a" 1 10; sample "b" 1 20] (Some 1%nat) None) as (o & O & S).
  - intros e [<-|[<-|[]]]; left; discriminate.
  - vm_compute in O. injection O as <-. vm_compute in S. discriminate.
Qed.

Lemma refresh_all_refreshed local clock l : all_refreshed local clock l (refresh_all local clock 0 l).
Proof.
  split; [apply refresh_all_length|]. intros n e E. eexists. split; [apply (refresh_all_nth _ _ _ 0%nat); exact E|]. apply refresh_refreshed.
Qed.

Lemma startable_aware local clock l e : startable l -> In e (refresh_all local clock 0 l) -> has_aware_start e.
Proof.
  intros S I. apply In_nth_error in I as (n & E).
  assert (L : (n < length l)%nat) by (rewrite <- (refresh_all_length local clock l 0%nat); apply nth_error_Some; congruence).
  destruct (nth_error l n) as [x|] eqn:X; [|apply nth_error_None in X; lia].
  rewrite (refresh_all_nth local clock l 0%nat n x X) in E. injection E as <-. apply refresh_aware. apply S. eapply nth_error_In; eassumption.
Qed.

(** What holds: the same events with their current statuses, active ones
    first, in order of start, active ones with the same start by priority;
    the slice is taken when limit and offset are both given and positive, and
    never from a single event. *)
Theorem C26_order_partial : forall local clock l limit offset, startable l ->
  exists l' ordered r, order_events local clock (ManyEvents l) limit offset = Ok (Some r) /\
    all_refreshed local clock l l' /\ Permutation l' ordered /\ StronglySorted actual_before ordered /\
    r = (match limit, offset with
         | Some (S _), Some (S _) => if Nat.eqb (length l) 1 then ordered else slice limit offset ordered
         | _, _ => ordered
         end).
Proof.
  intros local clock l limit offset S.
  set (l' := refresh_all local clock 0 l).
  assert (LL : length l' = length l) by apply refresh_all_length.
  pose proof (refresh_all_refreshed local clock l) as AR. fold l' in AR.
  assert (AW : forall a, In a l' -> aware_of (fun e => e) a) by (intros a I; eapply startable_aware; eassumption).
  destruct (arrange (fun e => e) l') as [o|] eqn:AE; [|rewrite arrange_ok in AE by assumption; discriminate].
  pose proof (arrange_perm _ _ _ AE) as P. pose proof (arrange_sorted _ _ _ AE) as ST. cbn beta in ST.
  unfold order_events. fold l'. unfold order_and_slice.
  destruct l' as [|x [|y l'']] eqn:El.
  - rewrite AE. cbn [bind]. exists [], o.
    assert (o = []) by (apply Permutation_nil in P; assumption). subst o.
    destruct limit as [[|?]|], offset as [[|?]|]; eexists; (split; [reflexivity|]); (split; [assumption|]); (split; [reflexivity|]); (split; [constructor|]); try reflexivity.
    cbn [length] in LL. destruct (Nat.eqb (length l) 1); [reflexivity|]. unfold slice. now rewrite !skipn_nil, firstn_nil.
  - exists [x], [x], [x]. split; [reflexivity|]. split; [assumption|]. split; [reflexivity|]. split; [repeat constructor|].
    simpl in LL. rewrite <- LL. simpl. destruct limit as [[|?]|], offset as [[|?]|]; reflexivity.
  - rewrite AE. cbn [bind]. exists (x :: y :: l''), o. cbn [length] in LL.
    destruct limit as [[|?]|], offset as [[|?]|]; eexists; (split; [reflexivity|]); (split; [assumption|]); (split; [assumption|]); (split; [assumption|]); try reflexivity.
    rewrite <- LL. reflexivity.
Qed.

(** It is the OpenADR order whenever no active event starts before another
    active event that has a higher priority. *)
Theorem C26_openadr_partial : forall l, StronglySorted actual_before l ->
  (forall a b, In a l -> In b l -> ev_status a = Active -> ev_status b = Active ->
     start_time a < start_time b -> ~ higher_priority b a) ->
  StronglySorted openadr_before l.
Proof.
  intros l S H. eapply StronglySorted_impl; [|exact S]. intros a b Ia Ib [K|[(A & B & K)|K]]; [left; exact K| |right; right; exact K].
  right. left. split; [assumption|]. split; [assumption|]. right. destruct K as [K|[E K]].
  - split; [now apply H|lia].
  - split; [assumption|lia].
Qed.

Theorem C26_other_arguments : forall local clock e limit offset,
  order_events local clock NoEvents limit offset = Ok None /\
  order_events local clock (OneEvent e) limit offset = Ok (Some [refresh local (fst (clock 0%nat)) (snd (clock 0%nat)) e]).
Proof. intros. split; reflexivity. Qed.

Example C26_example :
  exists r, order_events (fun w => w) (fun _ => (50, 50))
    (ManyEvents [sample "later" 1 300; sample "b" 2 10; sample "a" 1 10; sample "soon" 0 200]) None None = Ok (Some r) /\
  map ev_id r = [SStr "a"; SStr "b"; SStr "soon"; SStr "later"].
Proof. eexists. split; reflexivity. Qed.

(** ** C27 *)
Theorem C27_refresh : forall local clock l, all_refreshed local clock l (refresh_all local clock 0 l).
Proof. exact refresh_all_refreshed. Qed.

(** [refreshed] leaves no freedom. *)
Theorem C27_determined : forall local clock l a b, all_refreshed local clock l a -> all_refreshed local clock l b -> a = b.
Proof.
  intros local clock l a b [LA A] [LB B]. apply nth_error_ext. intros n.
  destruct (nth_error l n) as [e|] eqn:E.
  - destruct (A n e E) as (x & -> & RX). destruct (B n e E) as (y & -> & RY). f_equal. eapply refreshed_fun; eassumption.
  - apply nth_error_None in E. rewrite (proj2 (nth_error_None a n)) by lia. now rewrite (proj2 (nth_error_None b n)) by lia.
Qed.

Example C27_example :
  let cancelled := set_status Cancelled (sample "c" 1 10) in
  refresh (fun w => w) 50 51 cancelled = cancelled /\
  ed_created (ev_descriptor (refresh (fun w => w) 50 51 (sample "a" 1 10))) = 51 /\
  ed_created (ev_descriptor (refresh (fun w => w) 5 51 (sample "a" 1 10))) = 0.
Proof. repeat split. Qed.

Print Assumptions C24_status.
Print Assumptions C24_forward.
Print Assumptions C24_completes.
Print Assumptions C25_covers.
Print Assumptions C25_per_signal.
Print Assumptions C26_order_refuted.
Print Assumptions C26_order_partial.
Print Assumptions C27_refresh.
Print Assumptions C27_determined.
Print Assumptions C24_period.
Print Assumptions C25_empty.
Print Assumptions C25_mixed.
Print Assumptions C25_unique.
Print Assumptions C26_openadr_partial.
Print Assumptions C26_other_arguments.
Print Assumptions C26_slice_refuted.
