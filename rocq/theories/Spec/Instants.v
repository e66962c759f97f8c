(** The instant of a datetime value, by the calendar specification. *)
From Coq Require Import ZArith.
From Verif.Model Require Import DateTime.
From Verif.Spec Require Import Calendar.
Local Open Scope Z_scope.

(** The instant an aware datetime value denotes. *)
Definition dt_denotes (t : datetime) (i : Z) : Prop :=
  denotes (dt_year t) (dt_month t) (dt_day t) (dt_hour t) (dt_minute t) (dt_second t) (dt_micro t) (dt_off t) i.

(** [i] lies in a UTC year between 1000 and 9999. *)
Definition four_digit_utc_year (i : Z) : Prop :=
  exists lo hi, denotes 1000 1 1 0 0 0 0 0 lo /\ denotes 9999 12 31 23 59 59 999999 0 hi /\ lo <= i <= hi.
