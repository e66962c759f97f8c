(** The periods of queued and distributed events (C28). *)
From Coq Require Import ZArith String List Bool Lia Sorting.Permutation.
From Verif.Base Require Import Result Dict PyStr ListExtra.
From Verif.Model Require Import Objects EventTime EventService.
From Verif.Spec Require Import EventSpec QueueSpec.
From Verif.Proofs Require Import EventTimeProofs QueueProofs QueueHistory QueueLaws.
Import ListNotations.
Local Open Scope Z_scope.

Definition bare (e : event) : Prop :=
  ap_notification (ev_period e) = None /\ ap_ramp_up (ev_period e) = None /\ ap_recovery (ev_period e) = None.

Lemma refresh_bare local now now' e : bare e -> bare (refresh local now now' e).
Proof. intros (A & B & C). destruct (refresh_refreshed local now now' e). unfold bare. repeat split; congruence. Qed.

Lemma refresh_refs_bare local clock refs : forall i h r, bare (h r) -> bare (refresh_refs local clock i refs h r).
Proof.
  induction refs as [|x refs IH]; intros i h r B; simpl; [assumption|]. apply IH. unfold upd.
  destruct (Nat.eqb_spec r x) as [->|]; [now apply refresh_bare|assumption].
Qed.

Lemma prepare_bare e e' : prepare e = Ok e' -> bare e'.
Proof.
  unfold prepare, period_of_signals. destruct (mapM _ _) as [ps|]; [|discriminate]. cbn [bind].
  destruct (get_active_period_from_intervals ps) as [[st d]|]; [|discriminate]. cbn [bind]. intros H. injection H as <-.
  match goal with |- bare (match ?x with _ => _ end) => destruct x as [[| |]|] end; repeat split.
Qed.

Lemma step_bare local s l s' es r : step local s l = Some (s', es) -> (r < next s)%nat -> bare (heap s r) -> bare (heap s' r).
Proof.
  intros H Lr B. destruct l as [v src cb ok dcb|v id|tid v clock|tid v clock|tid v rs|tid out|f]; cbn [step] in H.
  - assert (A : add_raw_event v src cb ok dcb s = (s', es)) by (destruct src; [|destruct (Nat.ltb _ _); [|discriminate]]; congruence).
    apply add_cases in A as (_ & _ & _ & _ & [(x & _ & _ & _ & _ & _ & Hh & _)|(e' & _ & P & _ & Hh & _)]); rewrite Hh.
    + destruct src; [|assumption]. simpl. now rewrite upd_other by (simpl; lia).
    + unfold upd. destruct (Nat.eqb _ _); [eapply prepare_bare; eassumption|assumption].
  - injection H as <- <-. destruct (cancel_cases v id s) as [[_ ->]|(r' & _ & ->)]; [assumption|]. cbn [heap with_updated with_heap]. unfold upd.
    destruct (Nat.eqb_spec r r') as [->|]; assumption.
  - destruct (mem _ _ _); [discriminate|]. injection H as H. unfold poll in H. destruct (get scalar_eqb v (updated s)) as [[]|].
    + apply request_heap in H as [-> _]. now apply refresh_refs_bare.
    + apply pair_equal_spec in H as [<- _]. assumption.
    + apply pair_equal_spec in H as [<- _]. assumption.
  - destruct (mem _ _ _); [discriminate|]. injection H as H. apply request_heap in H as [-> _]. now apply refresh_refs_bare.
  - destruct (mem _ _ _); [discriminate|]. injection H as H. apply created_frame in H as (-> & _). assumption.
  - destruct (get Nat.eqb tid (tasks s)) as [t|]; [|discriminate]. destruct out as [[]|e].
    + destruct t; injection H as H; [apply deliver_frame in H as (-> & _)|apply created_frame in H as (-> & _)]; assumption.
    + injection H as <- _. assumption.
  - injection H as <- _. assumption.
Qed.

Lemma pending_bare local P s0 ls es s : initial s0 -> runs local P s0 ls es s -> forall v r, pending s v r -> bare (heap s r).
Proof.
  intros I0 H. induction H as [s|s ls es s1 l es1 s2 H IH Pl ST]; intros v r PD.
  - destruct I0 as (_ & Q & _ & _ & _ & _ & _ & T). destruct PD as [I|(t & p & l & i & G & _)].
    + unfold queue in I. rewrite Q in I. contradiction.
    + rewrite T in G. discriminate.
  - assert (ND : NoDup (keys (tasks s1))) by (eapply runs_nodup_tasks; [exact H|now apply initial_nodup]).
    assert (OLD : pending s1 v r -> bare (heap s2 r)).
    { intros PD1. eapply step_bare; [exact ST| |now apply (IH I0 v)]. eapply pending_added; eassumption. }
    destruct PD as [I|(t & p & o & i & G & I)].
    + destruct (step_queue _ _ _ _ _ ST v) as [E|[(src & cb & ok & dcb & -> & -> & E)|[(_ & S & _)|(rs & _ & S & _)]]].
      * apply OLD. left. now rewrite <- E.
      * rewrite E in I. apply in_app_iff in I as [I|[<-|[]]]; [apply OLD; now left|].
        apply add_step in ST as (A & _).
        apply add_cases in A as (_ & _ & _ & _ & [(x & C & _)|(e' & _ & PR & _ & HH & _)]); [discriminate|].
        rewrite HH, upd_same. eapply prepare_bare; eassumption.
      * apply OLD. left. eapply sublist_In; eassumption.
      * apply OLD. left. eapply sublist_In; eassumption.
    + destruct (proj1 (proj2 (step_tasks _ _ _ _ _ ST ND)) _ _ _ _ _ G) as [(j & G')|(_ & _ & [C|(o' & C & PP)])].
      * apply OLD. right. exists t, p, o, j. auto.
      * discriminate.
      * injection C as <-. apply OLD. left. eapply Permutation_in; [symmetry; exact PP|exact I].
Qed.

Lemma refresh_refs_near local clock refs : forall i h r, In r refs -> bare (h r) -> ev_status (refresh_refs local clock i refs h r) <> Near.
Proof.
  assert (ONE : forall now now' e, bare e -> ev_status (refresh local now now' e) <> Near).
  { intros now now' e (_ & B & _) N. destruct (refresh_refreshed local now now' e). destruct (status_eq_dec (ev_status e) Cancelled) as [C|C].
    - rewrite rf_cancelled in N by assumption. congruence.
    - destruct (rf_status C (aware_start local (ev_period e)) ltac:(now apply starts_aware)) as [I _]. rewrite N, B in I. inversion I; congruence. }
  assert (KEEP : forall refs i h r, bare (h r) -> ev_status (h r) <> Near -> ev_status (refresh_refs local clock i refs h r) <> Near).
  { clear refs. induction refs as [|x refs IH]; intros i h r B N; simpl; [assumption|].
    unfold upd at 1. apply IH; unfold upd; destruct (Nat.eqb_spec r x) as [->|]; auto using refresh_bare. }
  induction refs as [|x refs IH]; intros i h r I B; [contradiction|]. simpl.
  destruct (Nat.eq_dec r x) as [->|NE].
  - apply KEEP; rewrite upd_same; auto using refresh_bare.
  - destruct I as [I|I]; [congruence|]. apply IH; [assumption|]. now rewrite upd_other.
Qed.
