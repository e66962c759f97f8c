(** Vocabulary for replay protection: what an incoming check presents, and
    what the environment (clock, set iteration order) may do. *)
From Coq Require Import ZArith String List Permutation.
From Verif.Model Require Import Replay.
From Verif.Spec Require Import Timestamp.
Import ListNotations.
Local Open Scope Z_scope.

(** The message of check [c] has a well-formed timestamp of instant [fst e]
    and the nonce [snd e]. *)
Definition presents (c : check) (e : Z * string) : Prop :=
  exists text, ck_ts c = Some text /\ reads_as text (fst e) /\ ck_nonce c = Some (snd e).

(** The clock does not run backwards: the readings during a check are not
    before its first one, and not after the first reading of a later check. *)
Fixpoint clock_ok (h : list check) : Prop :=
  match h with
  | [] => True
  | c :: r => (forall i, ck_now c <= ck_clk c i) /\
              (forall c', In c' r -> forall i, ck_clk c i <= ck_now c') /\ clock_ok r
  end.

(** Iterating over the set visits every element once, in any order. *)
Definition shuffles_ok (h : list check) : Prop :=
  forall c, In c h -> forall l, Permutation (ck_shuffle c l) l.
