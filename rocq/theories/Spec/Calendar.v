(** The Gregorian calendar, by counting days one at a time. *)
From Coq Require Import ZArith Bool.
Local Open Scope Z_scope.

Definition date : Type := Z * Z * Z.   (* year, month, day *)

Definition divides (a b : Z) : Prop := exists k, b = k * a.
Definition leap (y : Z) : Prop := divides 4 y /\ (~ divides 100 y \/ divides 400 y).

(** [month_length y m n]: month m of year y has n days. *)
Inductive month_length (y : Z) : Z -> Z -> Prop :=
| ml_jan : month_length y 1 31
| ml_feb : ~ leap y -> month_length y 2 28
| ml_feb_leap : leap y -> month_length y 2 29
| ml_mar : month_length y 3 31 | ml_apr : month_length y 4 30
| ml_may : month_length y 5 31 | ml_jun : month_length y 6 30
| ml_jul : month_length y 7 31 | ml_aug : month_length y 8 31
| ml_sep : month_length y 9 30 | ml_oct : month_length y 10 31
| ml_nov : month_length y 11 30 | ml_dec : month_length y 12 31.

Inductive next_day : date -> date -> Prop :=
| nd_day y m d n : month_length y m n -> d < n -> next_day (y, m, d) (y, m, d + 1)
| nd_month y m n : month_length y m n -> m < 12 -> next_day (y, m, n) (y, m + 1, 1)
| nd_year y : next_day (y, 12, 31) (y + 1, 1, 1).

(** Day 1 is 0001-01-01. *)
Inductive day_number : date -> Z -> Prop :=
| dn_first : day_number (1, 1, 1) 1
| dn_next a b n : day_number a n -> next_day a b -> day_number b (n + 1).

(** A date that exists. *)
Definition real_date (y m d : Z) : Prop := exists n, month_length y m n /\ 1 <= d <= n.

(** A clock time of day, and the instant (in microseconds) that a date and
    time at a UTC offset denote. *)
Definition time_of_day (h mi s us : Z) : Prop :=
  0 <= h < 24 /\ 0 <= mi < 60 /\ 0 <= s < 60 /\ 0 <= us < 1000000.

Definition denotes (y m d h mi s us off i : Z) : Prop :=
  exists n, day_number (y, m, d) n /\ time_of_day h mi s us /\
    i = ((n * 86400 + h * 3600 + mi * 60 + s) * 1000000 + us) - off.
