(** What a cron expression means (the subset that cron_config produces),
    independent of how it is produced. *)
From Coq Require Import ZArith String List Bool.
From Verif.Base Require Import PyStr.
Local Open Scope string_scope.
Local Open Scope Z_scope.

(** [selects e v]: the field expression [e] selects the value [v]:
    "*" selects everything, "*/n" the multiples of n, "n" only n. *)
Inductive selects : string -> Z -> Prop :=
| sel_any v : selects "*" v
| sel_step ds v : all_digits ds = true -> ds <> "" -> 0 < int_of ds -> (int_of ds | v) -> selects ("*/" ++ ds) v
| sel_only ds : all_digits ds = true -> ds <> "" -> selects ds (int_of ds).

(** A step of zero is refused by the scheduler. *)
Definition usable_field (e : string) : Prop :=
  forall ds, e = "*/" ++ ds -> all_digits ds = true /\ ds <> "" /\ 0 < int_of ds.

(** [fires s m h t]: the schedule with these second, minute and hour fields
    fires at second [t] (counted from a midnight). *)
Definition fires (s m h : string) (t : Z) : Prop :=
  selects s (t mod 60) /\ selects m (t / 60 mod 60) /\ selects h (t / 3600 mod 24).

(** Intervals (in seconds) that divide the minute, the hour or the day. *)
Definition divides_clock (n : Z) : Prop :=
  0 < n /\ ((n | 60) \/ (exists m, n = 60 * m /\ (m | 60)) \/ (exists h, n = 3600 * h /\ (h | 24))).
