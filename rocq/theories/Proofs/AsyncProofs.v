From Coq Require Import ZArith String List Bool Lia Permutation.
From Verif.Base Require Import Result Dict.
From Verif.Model Require Import Async.
Import ListNotations.
Local Open Scope list_scope.

(** ** gather *)
Section Gather.
Context {A : Type}.
Implicit Types children : list (result A).

Definition first_raise children (order : list nat) : option exn :=
  fold_right (fun i acc => match nth_error children i with Some (Raise e) => Some e | _ => acc end) None order.

Lemma gather_outer_fixed children order n o :
  g_outer (fold_left (gather_done children) order {| g_finished := n; g_outer := Some o |}) = Some o.
Proof. revert n; induction order as [|i order IH]; intros n; simpl; [reflexivity|]. apply IH. Qed.


Lemma gather_raise' children order n e : n + length order <= length children ->
  first_raise children order = Some e ->
  g_outer (fold_left (gather_done children) order {| g_finished := n; g_outer := None |}) = Some (Raise e).
Proof.
  revert n; induction order as [|i order IH]; intros n L H; cbn [fold_left length first_raise fold_right] in *; [discriminate|].
  unfold gather_done at 2; cbn [g_finished g_outer].
  destruct (nth_error children i) as [[a|e']|] eqn:E.
  - destruct (Nat.eqb_spec (S n) (length children)) as [N|N].
    + destruct order; [discriminate|simpl in L; lia].
    + apply IH; [lia|assumption].
  - injection H as ->. apply gather_outer_fixed.
  - destruct (Nat.eqb_spec (S n) (length children)) as [N|N].
    + destruct order; [discriminate|simpl in L; lia].
    + apply IH; [lia|assumption].
Qed.

Lemma gather_ok' children order n : n + length order = length children -> order <> [] ->
  first_raise children order = None ->
  g_outer (fold_left (gather_done children) order {| g_finished := n; g_outer := None |}) = Some (mapM (fun c => c) children).
Proof.
  revert n; induction order as [|i order IH]; intros n L NE H; cbn [fold_left length first_raise fold_right] in *; [congruence|].
  unfold gather_done at 2; cbn [g_finished g_outer].
  destruct (nth_error children i) as [[a|e']|] eqn:E; try discriminate.
  - destruct (Nat.eqb_spec (S n) (length children)) as [N|N].
    + destruct order; [reflexivity|simpl in L; lia].
    + apply IH; [lia| |assumption]. intros ->. simpl in L. lia.
  - destruct (Nat.eqb_spec (S n) (length children)) as [N|N].
    + destruct order; [reflexivity|simpl in L; lia].
    + apply IH; [lia| |assumption]. intros ->. simpl in L. lia.
Qed.

Lemma first_raise_none children order : first_raise children order = None ->
  forall i e, In i order -> nth_error children i <> Some (Raise e).
Proof.
  induction order as [|j order IH]; simpl; intros H i e I; [contradiction|].
  destruct I as [->|I].
  - destruct (nth_error children i) as [[a|e']|]; congruence.
  - apply IH; [|assumption]. destruct (nth_error children j) as [[a|e']|]; congruence.
Qed.

Lemma first_raise_some children order e : first_raise children order = Some e ->
  exists o1 i o2, order = o1 ++ i :: o2 /\ nth_error children i = Some (Raise e) /\
    forall j, In j o1 -> forall e', nth_error children j <> Some (Raise e').
Proof.
  induction order as [|j order IH]; simpl; intros H; [discriminate|].
  destruct (nth_error children j) as [[a|e']|] eqn:E.
  - destruct (IH H) as (o1 & i & o2 & -> & X & Y). exists (j :: o1), i, o2. repeat split; auto.
    intros k [->|K]; [congruence|auto].
  - injection H as ->. exists [], j, order. repeat split; auto; intros ? [].
  - destruct (IH H) as (o1 & i & o2 & -> & X & Y). exists (j :: o1), i, o2. repeat split; auto.
    intros k [->|K]; [congruence|auto].
Qed.

Lemma complete_order_all children order : Permutation order (seq 0 (length children)) ->
  forall i, i < length children -> In i order.
Proof. intros P i L. eapply Permutation_in; [symmetry; exact P|]. apply in_seq. lia. Qed.
End Gather.

(** ** hooks *)
Lemma hooks_call_loop_spec hs c s :
  hooks_call_loop hs c s =
  match hs with
  | [] => (c, s, Ok tt)
  | HAsync i :: r => hooks_call_loop r (c ++ [i]) (s ++ [i])
  | HSync i :: r => (c ++ [i], s, Raise TypeError)
  | HRaising i e :: r => (c ++ [i], s, Raise e)
  end.
Proof. now destruct hs as [|[]]. Qed.

Lemma hooks_call_async hs c s : (forall h, In h hs -> exists i, h = HAsync i) ->
  hooks_call_loop hs c s = (c ++ map vtn_hook_id hs, s ++ map vtn_hook_id hs, Ok tt).
Proof.
  revert c s; induction hs as [|h hs IH]; intros c s H; simpl.
  - now rewrite !app_nil_r.
  - destruct (H h (or_introl eq_refl)) as [i ->]. rewrite IH by (intros; apply H; now right).
    simpl. now rewrite <- !app_assoc.
Qed.

Lemma hooks_call_ok hs c s : snd (hooks_call_loop hs c s) = Ok tt -> forall h, In h hs -> exists i, h = HAsync i.
Proof.
  revert c s; induction hs as [|h hs IH]; intros c s H k K; [contradiction|].
  destruct h as [i|i|i e]; simpl in H; try discriminate.
  destruct K as [<-|K]; [eauto|]. eapply IH; eassumption.
Qed.
