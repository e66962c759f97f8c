(** Small text utilities: fingerprints, flattening, booleans. *)
From Coq Require Import ZArith String Ascii List Bool.
From Verif.Base Require Import Result PyStr.
Import ListNotations.
Local Open Scope string_scope.

(** ** Certificate fingerprints *)

(** bytes.hex() (used at utils.py:395): two lower-case hexadecimal digits per
    byte, high nibble first.  A byte is modelled as an [ascii]. *)
Definition hex_digit (n : N) : ascii :=
  if (n <? 10)%N then ascii_of_N (48 + n) else ascii_of_N (87 + n).

Definition hex_byte (b : ascii) : string :=
  String (hex_digit (N_of_ascii b / 16)) (String (hex_digit (N_of_ascii b mod 16)) EmptyString).

Fixpoint hex_bytes (l : list ascii) : string :=
  match l with [] => "" | b :: r => hex_byte b ++ hex_bytes r end.

(** str.upper on ASCII text. *)
Definition upper_char (c : ascii) : ascii := if is_lower c then ascii_of_N (N_of_ascii c - 32) else c.
Fixpoint upper (s : string) : string :=
  match s with EmptyString => "" | String c r => String (upper_char c) (upper r) end.

(** range(start, stop, 2) *)
Definition range_by2 (start count : nat) : list nat := map (fun k => start + 2 * k) (seq 0 count).

(** utils.py:394-396 certificate_fingerprint_from_der.  [sha256] is the digest
    function of hashlib (not modelled; any function from bytes to bytes). *)
Definition certificate_fingerprint_from_der (sha256 : list ascii -> list ascii) (der : list ascii) : string :=
  let hash_ := hex_bytes (sha256 der) in
  join ":" (map (fun i => upper (substring i 2 hash_)) (range_by2 44 10)).

(** ** flatten_xml *)

(** str.strip(): ASCII white space.  Simplification: characters outside ASCII
    are bytes >= 128 here and are never white space (U+0085, U+00A0 and the
    other Unicode spaces are not recognised). *)
Definition is_space (c : ascii) : bool :=
  let n := N_of_ascii c in
  ((9 <=? n) && (n <=? 13) || (28 <=? n) && (n <=? 32))%N.

Fixpoint lstrip (s : string) : string :=
  match s with String c r => if is_space c then lstrip r else s | EmptyString => EmptyString end.

Fixpoint rstrip (s : string) : string :=
  match s with
  | EmptyString => EmptyString
  | String c r => match rstrip r with
                  | EmptyString => if is_space c then EmptyString else String c EmptyString
                  | t => String c t
                  end
  end.

Definition strip (s : string) : string := rstrip (lstrip s).

Definition newline : ascii := "010"%char.

(** utils.py:42-50 flatten_xml.  The for loop at 47-49 rebinds its loop
    variable and has no effect, so it is not modelled. *)
Definition flatten_xml (message : string) : string :=
  let lines := map strip (filter (fun line => negb (strip line =? "")) (split newline message)) in
  join "" lines.

(** ** Booleans *)

(** utils.py:351-363 booleanformat.  Values are scalars; values of other
    Python types take the same path as numbers do. *)
Definition booleanformat (value : scalar) : result scalar :=
  match value with
  | SBool true => Ok (SStr "true")
  | SBool false => Ok (SStr "false")
  | _ => if scalar_eqb value (SStr "true") || scalar_eqb value (SStr "false") then Ok value else Raise ValueError
  end.

(** utils.py:312-316 parse_boolean *)
Definition parse_boolean (value : scalar) : bool := scalar_eqb value (SStr "true").
