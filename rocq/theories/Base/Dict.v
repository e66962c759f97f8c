(** Python dictionaries: insertion-ordered association lists with unique keys.

    [eqb] is the key equality, given explicitly, so that the same definitions
    serve string keys and scalar keys. *)
From Coq Require Import List Bool.
Import ListNotations.

Section Dict.
  Context {K V : Type} (eqb : K -> K -> bool).

  Definition dict : Type := list (K * V).

  Fixpoint get (k : K) (d : dict) : option V :=
    match d with
    | [] => None
    | (k', v) :: r => if eqb k k' then Some v else get k r
    end.

  Definition mem (k : K) (d : dict) : bool :=
    match get k d with Some _ => true | None => false end.

  (** [d[k] = v]: an existing key keeps its position, a new key goes last. *)
  Fixpoint set (k : K) (v : V) (d : dict) : dict :=
    match d with
    | [] => [(k, v)]
    | (k', v') :: r => if eqb k k' then (k', v) :: r else (k', v') :: set k v r
    end.

  (** [del d[k]] / the removal part of [d.pop(k)]. *)
  Fixpoint del (k : K) (d : dict) : dict :=
    match d with
    | [] => []
    | (k', v') :: r => if eqb k k' then r else (k', v') :: del k r
    end.

  Definition keys (d : dict) : list K := map fst d.
  Definition values (d : dict) : list V := map snd d.

  Context (eqb_eq : forall a b, eqb a b = true <-> a = b).

  Lemma eqb_refl k : eqb k k = true.
  Proof. now apply eqb_eq. Qed.

  Lemma eqb_neq a b : a <> b -> eqb a b = false.
  Proof. intros H. destruct (eqb a b) eqn:E; [apply eqb_eq in E; contradiction | reflexivity]. Qed.

  Lemma get_set_same k v d : get k (set k v d) = Some v.
  Proof.
    induction d as [|[k' v'] r IH]; simpl; [now rewrite eqb_refl|].
    destruct (eqb k k') eqn:E; simpl; rewrite E; auto.
  Qed.

  Lemma get_set_other k k' v d : k <> k' -> get k (set k' v d) = get k d.
  Proof.
    intros N; induction d as [|[k2 v2] r IH]; simpl.
    - now rewrite eqb_neq.
    - destruct (eqb k' k2) eqn:E; simpl.
      + apply eqb_eq in E; subst. now rewrite eqb_neq.
      + now rewrite IH.
  Qed.

  Lemma get_set k k' v d : get k (set k' v d) = if eqb k k' then Some v else get k d.
  Proof.
    destruct (eqb k k') eqn:E.
    - apply eqb_eq in E; subst. apply get_set_same.
    - apply get_set_other. intros ->. rewrite eqb_refl in E; discriminate.
  Qed.

  Lemma get_del_other k k' d : k <> k' -> get k (del k' d) = get k d.
  Proof.
    intros N; induction d as [|[k2 v2] r IH]; simpl; [reflexivity|].
    destruct (eqb k' k2) eqn:E; simpl.
    - apply eqb_eq in E; subst. now rewrite eqb_neq.
    - now rewrite IH.
  Qed.

  Lemma get_in k v d : get k d = Some v -> In (k, v) d.
  Proof.
    induction d as [|[k' v'] r IH]; simpl; [discriminate|].
    destruct (eqb k k') eqn:E; intros H.
    - apply eqb_eq in E; subst. injection H as ->. now left.
    - right; auto.
  Qed.

  Lemma get_none_iff k d : get k d = None <-> ~ In k (keys d).
  Proof.
    induction d as [|[k' v'] r IH]; simpl; [tauto|].
    destruct (eqb k k') eqn:E.
    - apply eqb_eq in E; subst. split; [discriminate | intros H; exfalso; apply H; now left].
    - rewrite IH. split; intros H; [intros [->|]; [rewrite eqb_refl in E; discriminate | tauto] | tauto].
  Qed.

  Lemma mem_in k d : mem k d = true <-> In k (keys d).
  Proof.
    unfold mem. destruct (get k d) eqn:E.
    - split; [intros _ | reflexivity]. apply get_in in E.
      change k with (fst (k, v)). now apply in_map.
    - apply get_none_iff in E. split; [discriminate | contradiction].
  Qed.

  Lemma in_get_nodup k v d : NoDup (keys d) -> In (k, v) d -> get k d = Some v.
  Proof.
    induction d as [|[k' v'] r IH]; simpl; intros ND H; [contradiction|].
    inversion ND; subst. destruct H as [H|H].
    - injection H as -> ->. now rewrite eqb_refl.
    - destruct (eqb k k') eqn:E; [|auto].
      apply eqb_eq in E; subst. exfalso. apply H2.
      change k' with (fst (k', v)). now apply in_map.
  Qed.

  Lemma keys_set_in k k' v d : In k (keys (set k' v d)) <-> k = k' \/ In k (keys d).
  Proof.
    induction d as [|[k2 v2] r IH]; simpl; [intuition congruence|].
    destruct (eqb k' k2) eqn:E; simpl.
    - apply eqb_eq in E; subst. intuition congruence.
    - rewrite IH. intuition congruence.
  Qed.

  Lemma nodup_set k v d : NoDup (keys d) -> NoDup (keys (set k v d)).
  Proof.
    induction d as [|[k2 v2] r IH]; simpl; intros ND; [repeat constructor; auto|].
    inversion ND; subst. destruct (eqb k k2) eqn:E; simpl.
    - constructor; assumption.
    - constructor; [|auto]. rewrite keys_set_in. intros [->|]; [|contradiction].
      rewrite eqb_refl in E; discriminate.
  Qed.

  Lemma keys_del_in k k' d : In k (keys (del k' d)) -> In k (keys d).
  Proof.
    induction d as [|[k2 v2] r IH]; simpl; [tauto|].
    destruct (eqb k' k2); simpl; tauto.
  Qed.

  Lemma nodup_del k d : NoDup (keys d) -> NoDup (keys (del k d)).
  Proof.
    induction d as [|[k2 v2] r IH]; simpl; intros ND; [constructor|].
    inversion ND; subst. destruct (eqb k k2); simpl; [assumption|].
    constructor; [|auto]. intros H. apply keys_del_in in H. contradiction.
  Qed.

  Lemma get_del_same k d : NoDup (keys d) -> get k (del k d) = None.
  Proof.
    induction d as [|[k2 v2] r IH]; simpl; intros ND; [reflexivity|].
    inversion ND; subst. destruct (eqb k k2) eqn:E; simpl.
    - apply eqb_eq in E; subst. now apply get_none_iff.
    - rewrite E. auto.
  Qed.

  Lemma set_absent k v d : get k d = None -> set k v d = d ++ [(k, v)].
  Proof.
    induction d as [|[k2 v2] r IH]; simpl; [reflexivity|].
    destruct (eqb k k2); [discriminate|]. intros H. now rewrite IH.
  Qed.

  Lemma get_app k d1 d2 : get k (d1 ++ d2) = match get k d1 with Some v => Some v | None => get k d2 end.
  Proof.
    induction d1 as [|[k2 v2] r IH]; simpl; [reflexivity|].
    destruct (eqb k k2); [reflexivity|apply IH].
  Qed.

  Lemma mem_set k k' v d : mem k (set k' v d) = eqb k k' || mem k d.
  Proof. unfold mem. rewrite get_set. destruct (eqb k k'); reflexivity. Qed.
End Dict.
Arguments dict : clear implicits.
