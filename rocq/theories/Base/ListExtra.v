(** List lemmas missing from the standard library of Coq 8.16. *)
From Coq Require Import List Lia Permutation.
Import ListNotations.

Lemma Forall2_impl {A B} (P Q : A -> B -> Prop) l1 l2 :
  (forall a b, P a b -> Q a b) -> Forall2 P l1 l2 -> Forall2 Q l1 l2.
Proof. intros H F; induction F; constructor; auto. Qed.

Lemma Forall2_len {A B} (P : A -> B -> Prop) l1 l2 : Forall2 P l1 l2 -> length l1 = length l2.
Proof. intros F; induction F; simpl; congruence. Qed.

Lemma Forall2_nth {A B} (P : A -> B -> Prop) l1 l2 i a :
  Forall2 P l1 l2 -> nth_error l1 i = Some a -> exists b, nth_error l2 i = Some b /\ P a b.
Proof.
  intros F; revert i; induction F; intros [|i] H'; simpl in *; try discriminate.
  - injection H' as <-. eauto.
  - eauto.
Qed.

Lemma Forall2_map_l {A B C} (P : B -> C -> Prop) (f : A -> B) l1 l2 :
  Forall2 P (map f l1) l2 <-> Forall2 (fun a c => P (f a) c) l1 l2.
Proof.
  split.
  - revert l2; induction l1; intros l2 H; inversion H; subst; constructor; auto.
  - induction 1; constructor; auto.
Qed.

Lemma Forall2_map_r {A B C} (P : A -> C -> Prop) (f : B -> C) l1 l2 :
  Forall2 P l1 (map f l2) <-> Forall2 (fun a b => P a (f b)) l1 l2.
Proof.
  split.
  - revert l1; induction l2; intros l1 H; inversion H; subst; constructor; auto.
  - induction 1; constructor; auto.
Qed.

Lemma filter_map_comm {A B} (f : A -> B) (p : B -> bool) l :
  filter p (map f l) = map f (filter (fun a => p (f a)) l).
Proof. induction l as [|a l IH]; simpl; [reflexivity|]. destruct (p (f a)); simpl; congruence. Qed.

Lemma filter_none {A} (p : A -> bool) l : (forall a, In a l -> p a = false) -> filter p l = [].
Proof. induction l as [|a l IH]; simpl; intros H; [reflexivity|]. rewrite (H a) by auto. apply IH; auto. Qed.

Lemma filter_all {A} (p : A -> bool) l : (forall a, In a l -> p a = true) -> filter p l = l.
Proof. induction l as [|a l IH]; simpl; intros H; [reflexivity|]. rewrite (H a) by auto. f_equal. apply IH; auto. Qed.

Lemma filter_filter {A} (p q : A -> bool) l : filter p (filter q l) = filter (fun a => q a && p a)%bool l.
Proof. induction l as [|a l IH]; simpl; [reflexivity|]. destruct (q a); simpl; [destruct (p a)|]; congruence. Qed.

Lemma filter_ext_in' {A} (p q : A -> bool) l : (forall a, In a l -> p a = q a) -> filter p l = filter q l.
Proof. induction l as [|a l IH]; simpl; intros H; [reflexivity|]. rewrite (H a) by auto. rewrite IH by auto. reflexivity. Qed.

Lemma nth_error_ext {A} (a b : list A) : (forall n, nth_error a n = nth_error b n) -> a = b.
Proof.
  revert b; induction a as [|x a IH]; intros [|y b] H; [reflexivity|specialize (H 0); discriminate..|].
  f_equal; [specialize (H 0); simpl in H; congruence|]. apply IH. intros n. apply (H (S n)).
Qed.
