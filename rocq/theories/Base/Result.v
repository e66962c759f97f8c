(** Python exceptions as values.

    A Python call either returns a value or raises; [result A] is the type of
    its outcome.  [bind] is sequencing: the first exception wins. *)
From Coq Require Import ZArith String List.
Import ListNotations.
Local Open Scope string_scope.
Local Open Scope Z_scope.

(** Identifiers and other scalar payload values as they appear in message
    payloads after parsing (utils.py:94-108): strings, but also integers,
    decimal numbers and booleans, because the parser guesses types.
    Simplification: Python's cross-type equalities (1 == 1.0 == True) are not
    modelled; two scalars are equal only when they have the same type. *)
Inductive scalar : Type :=
| SNone
| SBool (b : bool)
| SInt (z : Z)
| SDec (mant : Z) (digits : nat)   (* mant * 10^-digits, as written *)
| SStr (s : string).

Definition scalar_eq_dec (a b : scalar) : {a = b} + {a <> b}.
Proof. decide equality; (apply Bool.bool_dec || apply Z.eq_dec || apply Nat.eq_dec || apply string_dec). Defined.

Definition scalar_eqb (a b : scalar) : bool := if scalar_eq_dec a b then true else false.

(** Exceptions that occur in the modelled code.  Built-in exceptions carry no
    message (messages are not modelled); [UserError n] is any exception that
    user code (handlers, callbacks, hooks) raises and that is none of the
    others; the last group are the classes of errors.py:20-104. *)
Inductive exn : Type :=
| KeyError
| TypeError
| ValueError
| AttributeError
| IndexError
| OverflowError
| NameError
| UnboundLocalError
| RecursionError
| AssertionError
| UndefinedError          (* jinja2 *)
| TemplateNotFound        (* jinja2 *)
| UserError (n : nat)
| XMLSyntaxError
| InvalidSignature
| FingerprintMismatch
| HTTPError (status : Z)
| ProtocolError (code : Z) (description : string)
| RequestReregistration (ven_id : scalar)
| SendEmptyHTTPResponse.

Inductive result (A : Type) : Type :=
| Ok (a : A)
| Raise (e : exn).
Arguments Ok {A} a.
Arguments Raise {A} e.

Definition bind {A B} (x : result A) (f : A -> result B) : result B :=
  match x with Ok a => f a | Raise e => Raise e end.

Declare Scope result_scope.
Delimit Scope result_scope with result.
Notation "'let*' x ':=' e 'in' f" := (bind e (fun x => f))
  (at level 200, x pattern, e at level 100, f at level 200, right associativity) : result_scope.

Definition is_ok {A} (x : result A) : bool :=
  match x with Ok _ => true | Raise _ => false end.

(** A list comprehension whose element expression may raise. *)
Fixpoint mapM {A B} (f : A -> result B) (l : list A) : result (list B) :=
  match l with
  | [] => Ok []
  | a :: r => bind (f a) (fun b => bind (mapM f r) (fun bs => Ok (b :: bs)))
  end.

(** A for loop that threads a state and may raise. *)
Fixpoint foldM {A S} (f : S -> A -> result S) (l : list A) (s : S) : result S :=
  match l with
  | [] => Ok s
  | a :: r => bind (f s a) (fun s' => foldM f r s')
  end.

Lemma scalar_eqb_eq a b : scalar_eqb a b = true <-> a = b.
Proof. unfold scalar_eqb; destruct (scalar_eq_dec a b); split; congruence. Qed.

Lemma scalar_eqb_refl a : scalar_eqb a a = true.
Proof. now apply scalar_eqb_eq. Qed.

Lemma scalar_eqb_neq a b : scalar_eqb a b = false <-> a <> b.
Proof. unfold scalar_eqb; destruct (scalar_eq_dec a b); split; congruence. Qed.

Lemma mapM_ok {A B} (f : A -> result B) l bs :
  mapM f l = Ok bs <-> Forall2 (fun a b => f a = Ok b) l bs.
Proof.
  revert bs; induction l as [|a l IH]; intros bs; simpl.
  - split; intros H; [injection H as <-; constructor | inversion H; reflexivity].
  - destruct (f a) eqn:Ea; simpl.
    + destruct (mapM f l) eqn:El; simpl.
      * split; intros H.
        -- injection H as <-. constructor; [assumption|]. now apply IH.
        -- inversion H; subst. apply IH in H4. congruence.
      * split; intros H; [discriminate|]. inversion H; subst. apply IH in H4. discriminate.
    + split; intros H; [discriminate|]. inversion H; congruence.
Qed.

Lemma mapM_length {A B} (f : A -> result B) l bs : mapM f l = Ok bs -> length bs = length l.
Proof. intros H. apply mapM_ok in H. induction H; simpl; congruence. Qed.

Lemma mapM_total {A B} (f : A -> result B) (g : A -> B) l :
  (forall a, In a l -> f a = Ok (g a)) -> mapM f l = Ok (map g l).
Proof.
  induction l as [|a l IH]; intros H; simpl; [reflexivity|].
  rewrite (H a (or_introl eq_refl)); simpl.
  rewrite IH by (intros; apply H; now right). reflexivity.
Qed.

Lemma foldM_app {A S} (f : S -> A -> result S) l1 l2 s :
  foldM f (l1 ++ l2) s = bind (foldM f l1 s) (foldM f l2).
Proof.
  revert s; induction l1 as [|a l1 IH]; intros s; simpl; [reflexivity|].
  destruct (f s a); simpl; [apply IH|reflexivity].
Qed.
