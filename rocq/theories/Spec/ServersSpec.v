(** Vocabulary for C59: what a server was told when it was constructed. *)
From Coq Require Import ZArith String List Bool.
From Verif.Base Require Import Result Dict PyStr.
From Verif.Model Require Import VtnService Servers.
Import ListNotations.

Definition own (a : args) : config := mk_cfg (a_vtn a) (a_ven a) (a_fp a) (a_verify a) (a_types a) (a_handle a).

(** [x] is the last thing given in [l] by [f], if any was given. *)
Definition last_given {A} (f : args -> option A) (l : list args) (x : option A) : Prop :=
  (x = None /\ forall a, In a l -> f a = None) \/
  (exists l1 a l2 v, l = (l1 ++ a :: l2)%list /\ f a = Some v /\ x = Some v /\ forall b, In b l2 -> f b = None).
