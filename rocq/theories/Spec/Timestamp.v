(** The timestamp notation of OpenADR messages: YYYY-MM-DDThh:mm:ss, an
    optional fraction of a second, Z.  Trailing text is allowed. *)
From Coq Require Import ZArith String.
From Verif.Spec Require Import Rfc5545 Calendar.
Local Open Scope string_scope.
Local Open Scope Z_scope.

(** [k] digits with value [v]. *)
Definition number_of_width (k : nat) (s : string) (v : Z) : Prop := number s v /\ String.length s = k.

(** The digits of the fraction and the microseconds they stand for, rounded
    down: 0.f seconds = v / 10^length f seconds. *)
Inductive fraction : string -> Z -> Prop :=
| fr_none : fraction "" 0
| fr_digits f v : number f v -> fraction f (v * 1000000 / 10 ^ Z.of_nat (String.length f)).

Inductive timestamp_text : string -> Z -> Z -> Z -> Z -> Z -> Z -> Z -> Prop :=
| ts_intro ys y mos mo ds d hs h mis mi ss s dot f us rest :
    number_of_width 4 ys y -> number_of_width 2 mos mo -> number_of_width 2 ds d ->
    number_of_width 2 hs h -> number_of_width 2 mis mi -> number_of_width 2 ss s ->
    dot = "" \/ dot = "." -> fraction f us ->
    timestamp_text
      (ys ++ "-" ++ mos ++ "-" ++ ds ++ "T" ++ hs ++ ":" ++ mis ++ ":" ++ ss ++ dot ++ f ++ "Z" ++ rest)
      y mo d h mi s us.

(** Fields a datetime can have. *)
Definition possible (y mo d h mi s us : Z) : Prop :=
  1 <= y <= 9999 /\ real_date y mo d /\ time_of_day h mi s us.

(** [text] is a well-formed UTC timestamp of the instant [i] (microseconds). *)
Definition reads_as (text : string) (i : Z) : Prop :=
  exists y mo d h mi s us,
    timestamp_text text y mo d h mi s us /\ possible y mo d h mi s us /\ denotes y mo d h mi s us 0 i.
