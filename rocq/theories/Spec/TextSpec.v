(** Vocabulary for C07 and C12, independent of the model. *)
From Coq Require Import ZArith String Ascii List Bool.
Import ListNotations.
Local Open Scope string_scope.

(** The value of an upper-case hexadecimal digit. *)
Definition hex_value (c : ascii) : option N :=
  let n := N_of_ascii c in
  if ((48 <=? n) && (n <=? 57))%N then Some (n - 48)%N
  else if ((65 <=? n) && (n <=? 70))%N then Some (n - 55)%N
  else None.

(** [colon_hex s bs]: [s] is the colon-separated upper-case hexadecimal
    writing of the bytes [bs]. *)
Inductive colon_hex : string -> list ascii -> Prop :=
| ch_last h l vh vl b :
    hex_value h = Some vh -> hex_value l = Some vl -> (N_of_ascii b = 16 * vh + vl)%N ->
    colon_hex (String h (String l EmptyString)) [b]
| ch_more h l vh vl b s bs :
    hex_value h = Some vh -> hex_value l = Some vl -> (N_of_ascii b = 16 * vh + vl)%N ->
    colon_hex s bs ->
    colon_hex (String h (String l (String ":" s))) (b :: bs).

(** White space: tab, line feed, vertical tab, form feed, carriage return,
    the four ASCII separators and the blank. *)
Definition blank (c : ascii) : Prop :=
  In c ["009"; "010"; "011"; "012"; "013"; "028"; "029"; "030"; "031"; "032"]%char.

Fixpoint all_blank (s : string) : Prop :=
  match s with EmptyString => True | String c r => blank c /\ all_blank r end.

Fixpoint has_char (c : ascii) (s : string) : Prop :=
  match s with EmptyString => False | String d r => c = d \/ has_char c r end.

(** [trimmed s]: neither the first nor the last character is blank. *)
Definition trimmed (s : string) : Prop :=
  (forall c r, s = String c r -> ~ blank c) /\ (forall p c, s = p ++ String c EmptyString -> ~ blank c).

(** [flattening s t]: cutting [s] at its line feeds and dropping the white
    space at both ends of every line leaves [t]. *)
Inductive flattening : string -> string -> Prop :=
| fl_last a m b : all_blank a -> trimmed m -> all_blank b ->
    ~ has_char "010" (a ++ m ++ b) -> flattening (a ++ m ++ b) m
| fl_line a m b s t : all_blank a -> trimmed m -> all_blank b ->
    ~ has_char "010" (a ++ m ++ b) -> flattening s t ->
    flattening ((a ++ m ++ b) ++ String "010" s) (m ++ t).

(** The characters of a text that are not blank, in order. *)
Inductive ink : string -> list ascii -> Prop :=
| ink_nil : ink EmptyString []
| ink_blank c s l : blank c -> ink s l -> ink (String c s) l
| ink_char c s l : ~ blank c -> ink s l -> ink (String c s) (c :: l).
