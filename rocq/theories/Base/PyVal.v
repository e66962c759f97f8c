(** Python values as far as the dict/dataclass utilities see them. *)
From Coq Require Import ZArith String List Bool Lia.
From Verif.Base Require Import Result Dict PyStr.
Import ListNotations.
Local Open Scope string_scope.

(** [VDict]: a dict with string keys, in insertion order.  [VObj]: an instance
    of a dataclass; only its instance fields are visible (methods and class
    attributes are not modelled).  Date-times and timedeltas are their number
    of microseconds, functions are named by a number.  Values are trees:
    sharing between values is not represented here. *)
Inductive val : Type :=
| VS (s : scalar)
| VDt (t : Z)
| VTd (t : Z)
| VFun (n : nat)
| VList (l : list val)
| VTuple (l : list val)
| VDict (d : list (string * val))
| VObj (cls : string) (fields : list (string * val)).

Definition VNone := VS SNone.
Definition VStr (s : string) := VS (SStr s).

(** A dict display or a dataclass has each key once. *)
Fixpoint wf (v : val) : Prop :=
  match v with
  | VS _ | VDt _ | VTd _ | VFun _ => True
  | VList l | VTuple l => fold_right (fun x acc => wf x /\ acc) True l
  | VDict d | VObj _ d => NoDup (map fst d) /\ fold_right (fun kv acc => wf (snd kv) /\ acc) True d
  end.

(** Python's ==: lists and tuples element by element, dicts regardless of
    order, dataclasses field by field (for instances of the same class). *)
Fixpoint veq (a b : val) {struct a} : bool :=
  match a, b with
  | VS x, VS y => scalar_eqb x y
  | VDt x, VDt y => Z.eqb x y
  | VTd x, VTd y => Z.eqb x y
  | VFun x, VFun y => Nat.eqb x y
  | VList l, VList m | VTuple l, VTuple m =>
    (fix list_eq (l m : list val) : bool :=
       match l, m with
       | [], [] => true
       | x :: l', y :: m' => veq x y && list_eq l' m'
       | _, _ => false
       end) l m
  | VDict d, VDict e =>
    Nat.eqb (length d) (length e) &&
    (fix dict_eq (d : list (string * val)) : bool :=
       match d with
       | [] => true
       | (k, x) :: d' => match get String.eqb k e with Some y => veq x y | None => false end && dict_eq d'
       end) d
  | VObj c d, VObj c' e =>
    String.eqb c c' && Nat.eqb (length d) (length e) &&
    (fix dict_eq (d : list (string * val)) : bool :=
       match d with
       | [] => true
       | (k, x) :: d' => match get String.eqb k e with Some y => veq x y | None => false end && dict_eq d'
       end) d
  | _, _ => false
  end.

(** Truth value of a value in a condition. *)
Definition truthy (v : val) : bool :=
  match v with
  | VS SNone => false
  | VS (SBool b) => b
  | VS (SInt z) => negb (Z.eqb z 0)
  | VS (SDec m _) => negb (Z.eqb m 0)
  | VS (SStr s) => negb (String.eqb s "")
  | VTd t => negb (Z.eqb t 0)
  | VList [] | VTuple [] | VDict [] => false
  | _ => true
  end.

(** Values that can be dict keys. *)
Fixpoint hashable (v : val) : bool :=
  match v with
  | VS _ | VDt _ | VTd _ | VFun _ => true
  | VTuple l => forallb hashable l
  | VList _ | VDict _ | VObj _ _ => false
  end.

(** ** Induction *)
Section Ind.
Variable P : val -> Prop.
Hypothesis Hs : forall s, P (VS s).
Hypothesis Hdt : forall t, P (VDt t).
Hypothesis Htd : forall t, P (VTd t).
Hypothesis Hf : forall n, P (VFun n).
Hypothesis Hl : forall l, Forall P l -> P (VList l).
Hypothesis Ht : forall l, Forall P l -> P (VTuple l).
Hypothesis Hd : forall d, Forall (fun kv => P (snd kv)) d -> P (VDict d).
Hypothesis Ho : forall c d, Forall (fun kv => P (snd kv)) d -> P (VObj c d).
Fixpoint val_ind' (v : val) : P v :=
  match v with
  | VS s => Hs s | VDt t => Hdt t | VTd t => Htd t | VFun n => Hf n
  | VList l => Hl l ((fix go l := match l return Forall P l with [] => Forall_nil _ | x :: r => Forall_cons _ (val_ind' x) (go r) end) l)
  | VTuple l => Ht l ((fix go l := match l return Forall P l with [] => Forall_nil _ | x :: r => Forall_cons _ (val_ind' x) (go r) end) l)
  | VDict d => Hd d ((fix go d := match d return Forall (fun kv => P (snd kv)) d with [] => Forall_nil _ | x :: r => Forall_cons _ (val_ind' (snd x)) (go r) end) d)
  | VObj c d => Ho c d ((fix go d := match d return Forall (fun kv => P (snd kv)) d with [] => Forall_nil _ | x :: r => Forall_cons _ (val_ind' (snd x)) (go r) end) d)
  end.
End Ind.

(** ** Equality is an equivalence *)
Definition dict_le (d e : list (string * val)) : Prop :=
  forall k x, In (k, x) d -> exists y, get String.eqb k e = Some y /\ veq x y = true.

Lemma dict_eq_spec (d e : list (string * val)) :
  (fix dict_eq (d : list (string * val)) : bool :=
       match d with
       | [] => true
       | (k, x) :: d' => match get String.eqb k e with Some y => veq x y | None => false end && dict_eq d'
       end) d = true <-> dict_le d e.
Proof.
  unfold dict_le. induction d as [|[k x] d IH].
  - split; [intros _ ? ? []|reflexivity].
  - rewrite andb_true_iff, IH. split.
    + intros [A B] k' x' [E|I]; [|auto]. injection E as <- <-. destruct (get String.eqb k e); [eauto|discriminate].
    + intros H. split; [|intros; apply H; now right]. destruct (H k x (or_introl eq_refl)) as (y & -> & V). exact V.
Qed.

Lemma veq_list l m : veq (VList l) (VList m) = true <-> Forall2 (fun a b => veq a b = true) l m.
Proof.
  cbn [veq]. revert m; induction l as [|x l IH]; intros [|y m]; (split; [intros H|intros H; inversion H; subst]); try discriminate; try constructor.
  - apply andb_true_iff in H as [A B]. assumption.
  - apply andb_true_iff in H as [A B]. now apply IH.
  - apply andb_true_iff. split; [assumption|]. now apply IH.
Qed.

Lemma veq_tuple l m : veq (VTuple l) (VTuple m) = true <-> Forall2 (fun a b => veq a b = true) l m.
Proof. exact (veq_list l m). Qed.

Lemma veq_dict d e : veq (VDict d) (VDict e) = true <-> length d = length e /\ dict_le d e.
Proof. cbn [veq]. rewrite andb_true_iff, Nat.eqb_eq, dict_eq_spec. reflexivity. Qed.

Lemma veq_obj c c' d e : veq (VObj c d) (VObj c' e) = true <-> c = c' /\ length d = length e /\ dict_le d e.
Proof. cbn [veq]. rewrite !andb_true_iff, Nat.eqb_eq, String.eqb_eq, dict_eq_spec. tauto. Qed.

Lemma get_In_val {V} k (d : list (string * V)) v : get String.eqb k d = Some v -> In (k, v) d.
Proof.
  induction d as [|[k' v'] d IH]; simpl; [discriminate|].
  destruct (String.eqb_spec k k') as [->|N]; [intros H; injection H as ->; auto|auto].
Qed.

Lemma In_get_val {V} k (d : list (string * V)) v : NoDup (map fst d) -> In (k, v) d -> get String.eqb k d = Some v.
Proof.
  induction d as [|[k' v'] d IH]; simpl; [contradiction|]. intros N [E|I].
  - injection E as -> ->. now rewrite String.eqb_refl.
  - inversion N; subst. destruct (String.eqb_spec k k') as [->|NE]; [|auto].
    exfalso. apply H1. apply in_map_iff. now exists (k', v).
Qed.

Lemma wf_dict_get d k v : wf (VDict d) -> get String.eqb k d = Some v -> wf v.
Proof.
  cbn [wf]. intros [_ F] H. apply get_In_val in H. induction d as [|[k' v'] d IH]; [contradiction|].
  cbn [fold_right snd] in F. destruct F as [W F]. destruct H as [E|H]; [injection E as -> ->; exact W|auto].
Qed.

Lemma wf_list_In l x : wf (VList l) -> In x l -> wf x.
Proof. cbn [wf]. induction l as [|y l IH]; [contradiction|]. cbn [fold_right]. intros [W F] [->|I]; auto. Qed.

Lemma Forall_get {V} (P : V -> Prop) k (d : list (string * V)) v :
  Forall (fun kv => P (snd kv)) d -> get String.eqb k d = Some v -> P v.
Proof. intros F G. apply get_In_val in G. rewrite Forall_forall in F. exact (F _ G). Qed.

(** The keys of equal dicts are the same. *)
Lemma dict_le_keys d e : NoDup (map fst d) -> length d = length e -> dict_le d e ->
  forall k, In k (map fst e) -> In k (map fst d).
Proof.
  intros N L H. apply (NoDup_length_incl N).
  - rewrite !map_length. lia.
  - intros k I. apply in_map_iff in I as ([k' x] & <- & I). destruct (H _ _ I) as (y & G & _).
    apply get_In_val in G. apply in_map_iff. now exists (k', y).
Qed.

Lemma veq_refl v : wf v -> veq v v = true.
Proof.
  assert (D : forall d, Forall (fun kv : string * val => wf (snd kv) -> veq (snd kv) (snd kv) = true) d ->
     NoDup (map fst d) /\ fold_right (fun kv acc => wf (snd kv) /\ acc) True d -> dict_le d d).
  { intros d F [N W] k x I. exists x. split; [now apply In_get_val|].
    rewrite Forall_forall in F. apply (F (k, x) I). apply wf_dict_get with (d := d) (k := k); [split; assumption|now apply In_get_val]. }
  induction v using val_ind'; intros W; simpl.
  - apply scalar_eqb_refl.
  - apply Z.eqb_refl.
  - apply Z.eqb_refl.
  - apply Nat.eqb_refl.
  - apply veq_list. rewrite Forall_forall in H.
    assert (G : forall x, In x l -> veq x x = true) by (intros x I; apply H; [assumption|now apply wf_list_In with l]).
    clear -G. induction l; constructor; [apply G; now left|]. apply IHl. intros; apply G; now right.
  - apply veq_tuple. rewrite Forall_forall in H.
    assert (G : forall x, In x l -> veq x x = true) by (intros x I; apply H; [assumption|now apply wf_list_In with l]).
    clear -G. induction l; constructor; [apply G; now left|]. apply IHl. intros; apply G; now right.
  - apply veq_dict. split; [reflexivity|]. apply D; assumption.
  - apply veq_obj. split; [reflexivity|]. split; [reflexivity|]. apply D; assumption.
Qed.

Lemma veq_sym a : forall b, wf a -> wf b -> veq a b = true -> veq b a = true.
Proof.
  assert (D : forall d e, Forall (fun kv : string * val => forall b, wf (snd kv) -> wf b -> veq (snd kv) b = true -> veq b (snd kv) = true) d ->
     wf (VDict d) -> wf (VDict e) -> length d = length e -> dict_le d e -> dict_le e d).
  { intros d e F Wd We L H k y I.
    assert (K : In k (map fst d)) by (apply (dict_le_keys d e (proj1 Wd) L H); apply in_map_iff; now exists (k, y)).
    apply in_map_iff in K as ([k' x] & E & K). simpl in E; subst k'. exists x.
    split; [apply In_get_val; [apply Wd|assumption]|].
    destruct (H _ _ K) as (y' & G & V). assert (y' = y) by (apply In_get_val in I; [congruence|apply We]). subst y'.
    rewrite Forall_forall in F. apply (F (k, x) K y); [|eapply wf_dict_get; eassumption|assumption].
    apply wf_dict_get with (d := d) (k := k); [assumption|]. apply In_get_val; [apply Wd|assumption]. }
  assert (LL : forall l m, Forall (fun a => forall b, wf a -> wf b -> veq a b = true -> veq b a = true) l -> wf (VList l) -> wf (VList m) ->
     Forall2 (fun a b => veq a b = true) l m -> Forall2 (fun a b => veq a b = true) m l).
  { intros l m F Wl Wm Q. induction Q; constructor.
    - inversion F; subst. apply H2; [apply Wl|apply Wm|assumption].
    - inversion F; subst. apply IHQ; [assumption|apply Wl|apply Wm]. }
  induction a using val_ind'; intros b Wa Wb V; destruct b; try discriminate.
  - simpl in *. apply scalar_eqb_eq in V. subst. apply scalar_eqb_refl.
  - simpl in *. now rewrite Z.eqb_sym.
  - simpl in *. now rewrite Z.eqb_sym.
  - simpl in *. now rewrite Nat.eqb_sym.
  - apply veq_list. apply veq_list in V. now apply LL.
  - apply veq_tuple. apply veq_tuple in V. now apply LL.
  - apply veq_dict. apply veq_dict in V as [L V]. split; [easy|]. now apply D.
  - apply veq_obj. apply veq_obj in V as (E & L & V). split; [easy|]. split; [easy|]. now apply D.
Qed.

Lemma veq_trans a : forall b c, veq a b = true -> veq b c = true -> veq a c = true.
Proof.
  assert (D : forall d e f, Forall (fun kv : string * val => forall b c, veq (snd kv) b = true -> veq b c = true -> veq (snd kv) c = true) d ->
     dict_le d e -> dict_le e f -> dict_le d f).
  { intros d e f F H1 H2 k x I. destruct (H1 _ _ I) as (y & G & V). destruct (H2 k y (get_In_val _ _ _ G)) as (z & G' & V').
    exists z. split; [assumption|]. rewrite Forall_forall in F. exact (F (k, x) I y z V V'). }
  assert (LL : forall l m n, Forall (fun a => forall b c, veq a b = true -> veq b c = true -> veq a c = true) l ->
     Forall2 (fun a b => veq a b = true) l m -> Forall2 (fun a b => veq a b = true) m n -> Forall2 (fun a b => veq a b = true) l n).
  { intros l m n F Q. revert n. induction Q; intros n R; inversion R; subst; constructor; inversion F; subst; eauto. }
  induction a using val_ind'; intros v w V W; destruct v; try discriminate; destruct w; try discriminate.
  - simpl in *. apply scalar_eqb_eq in V, W. subst. apply scalar_eqb_refl.
  - simpl in *. apply Z.eqb_eq in V, W. apply Z.eqb_eq. congruence.
  - simpl in *. apply Z.eqb_eq in V, W. apply Z.eqb_eq. congruence.
  - simpl in *. apply Nat.eqb_eq in V, W. apply Nat.eqb_eq. congruence.
  - apply veq_list in V, W. apply veq_list. eapply LL; eassumption.
  - apply veq_tuple in V, W. apply veq_tuple. eapply LL; eassumption.
  - apply veq_dict in V as [L V]. apply veq_dict in W as [L' W]. apply veq_dict. split; [congruence|]. eapply D; eassumption.
  - apply veq_obj in V as (E & L & V). apply veq_obj in W as (E' & L' & W). apply veq_obj. split; [congruence|]. split; [congruence|]. eapply D; eassumption.
Qed.
