(** Timestamps: utils.parse_datetime, utils.datetimeformat and the part of
    Python's datetime module they use (proleptic Gregorian ordinals,
    constructor checks, conversion to UTC, strftime). *)
From Coq Require Import ZArith String Ascii List Bool.
From Verif.Base Require Import Result PyStr.
Import ListNotations.
Local Open Scope string_scope.
Local Open Scope Z_scope.

(** A timezone-aware datetime.datetime: calendar fields and the UTC offset in
    microseconds.  Simplifications: the fold attribute and tzinfo objects with
    varying offset are not modelled; naive datetimes are not modelled here. *)
Record datetime := mkdt {
  dt_year : Z; dt_month : Z; dt_day : Z;
  dt_hour : Z; dt_minute : Z; dt_second : Z; dt_micro : Z;
  dt_off : Z }.

(** datetime.py (standard library) _is_leap, _days_in_month, _days_before_year,
    _days_before_month, _ymd2ord. *)
Definition is_leap (y : Z) : bool := (y mod 4 =? 0) && (negb (y mod 100 =? 0) || (y mod 400 =? 0)).
Definition days_in_month (y m : Z) : Z :=
  if m =? 2 then (if is_leap y then 29 else 28)
  else if (m =? 4) || (m =? 6) || (m =? 9) || (m =? 11) then 30 else 31.
Definition days_before_year (y : Z) : Z :=
  let y' := y - 1 in y' * 365 + y' / 4 - y' / 100 + y' / 400.
Definition DAYS_BEFORE_MONTH (m : Z) : Z :=
  match m with
  | 1 => 0 | 2 => 31 | 3 => 59 | 4 => 90 | 5 => 120 | 6 => 151 | 7 => 181
  | 8 => 212 | 9 => 243 | 10 => 273 | 11 => 304 | 12 => 334 | _ => -1
  end.
Definition DAYS_IN_MONTH (m : Z) : Z :=
  match m with
  | 1 => 31 | 2 => 28 | 3 => 31 | 4 => 30 | 5 => 31 | 6 => 30 | 7 => 31
  | 8 => 31 | 9 => 30 | 10 => 31 | 11 => 30 | 12 => 31 | _ => -1
  end.
Definition days_before_month (y m : Z) : Z :=
  DAYS_BEFORE_MONTH m + (if (2 <? m) && is_leap y then 1 else 0).
Definition ymd2ord (y m d : Z) : Z := days_before_year y + days_before_month y m + d.

(** datetime.py (standard library) _ord2ymd. *)
Definition ord2ymd (n : Z) : Z * Z * Z :=
  let n := n - 1 in
  let n400 := n / 146097 in let n := n mod 146097 in
  let year := n400 * 400 + 1 in
  let n100 := n / 36524 in let n := n mod 36524 in
  let n4 := n / 1461 in let n := n mod 1461 in
  let n1 := n / 365 in let n := n mod 365 in
  let year := year + (n100 * 100 + n4 * 4 + n1) in
  if (n1 =? 4) || (n100 =? 4) then (year - 1, 12, 31)
  else
    let leapyear := (n1 =? 3) && (negb (n4 =? 24) || (n100 =? 3)) in
    let month := Z.shiftr (n + 50) 5 in
    let preceding := DAYS_BEFORE_MONTH month + (if (2 <? month) && leapyear then 1 else 0) in
    if n <? preceding then
      let month := month - 1 in
      let preceding := preceding - (DAYS_IN_MONTH month + (if (month =? 2) && leapyear then 1 else 0)) in
      (year, month, n - preceding + 1)
    else (year, month, n - preceding + 1).

(** datetime constructor checks (_check_date_fields, _check_time_fields):
    ValueError on impossible fields. *)
Definition fields_ok (y mo d h mi s us : Z) : bool :=
  (1 <=? y) && (y <=? 9999) && (1 <=? mo) && (mo <=? 12) &&
  (1 <=? d) && (d <=? days_in_month y mo) &&
  (0 <=? h) && (h <=? 23) && (0 <=? mi) && (mi <=? 59) &&
  (0 <=? s) && (s <=? 59) && (0 <=? us) && (us <=? 999999).
Definition mk_datetime (y mo d h mi s us off : Z) : result datetime :=
  if fields_ok y mo d h mi s us then Ok (mkdt y mo d h mi s us off) else Raise ValueError.

(** The instant an aware datetime denotes, in microseconds (the origin is
    0000-12-31T00:00Z); Python compares and subtracts aware datetimes by it
    (datetime.py __eq__, __lt__, __sub__). *)
Definition local_us (t : datetime) : Z :=
  (((ymd2ord (dt_year t) (dt_month t) (dt_day t) * 24 + dt_hour t) * 60 + dt_minute t) * 60 + dt_second t)
    * 1000000 + dt_micro t.
Definition instant (t : datetime) : Z := local_us t - dt_off t.

(** The UTC datetime of a given instant; datetime arithmetic raises
    OverflowError outside the years 1..9999 (datetime.py __add__). *)
Definition of_instant (i : Z) : result datetime :=
  let day := i / 86400000000 in
  let r := i mod 86400000000 in
  if (1 <=? day) && (day <=? 3652059) then
    let '(y, mo, d) := ord2ymd day in
    let s := r / 1000000 in
    Ok (mkdt y mo d (s / 3600) (s mod 3600 / 60) (s mod 60) (r mod 1000000) 0)
  else Raise OverflowError.

(** value.astimezone(timezone.utc). *)
Definition to_utc (t : datetime) : result datetime := of_instant (instant t).

(** strftime("%Y-%m-%dT%H:%M:%S.%fZ") (utils.py:31, DATETIME_FORMAT).  %Y is
    not zero-padded for years below 1000 on the platforms the project runs on
    (glibc). *)
Definition strftime_utc (t : datetime) : string :=
  dec (dt_year t) ++ "-" ++ pad 2 (dt_month t) ++ "-" ++ pad 2 (dt_day t) ++ "T" ++
  pad 2 (dt_hour t) ++ ":" ++ pad 2 (dt_minute t) ++ ":" ++ pad 2 (dt_second t) ++ "." ++
  pad 6 (dt_micro t) ++ "Z".

(** utils.py:319-325 for an aware datetime (any other value is returned as is). *)
Definition datetimeformat (t : datetime) : result string :=
  match to_utc t with Ok u => Ok (strftime_utc u) | Raise e => Raise e end.

(** Exactly [k] digits. *)
Fixpoint take_digits (k : nat) (s : string) : option (string * string) :=
  match k with
  | O => Some ("", s)
  | S k' =>
      match s with
      | String c r =>
          if is_digit c then
            match take_digits k' r with Some (a, b) => Some (String c a, b) | None => None end
          else None
      | EmptyString => None
      end
  end.

Definition expect (c : ascii) (s : string) : option string :=
  match s with String c' r => if Ascii.eqb c' c then Some r else None | EmptyString => None end.

(** At most the first [k] characters. *)
Fixpoint first_n (k : nat) (s : string) : string :=
  match k, s with
  | S k', String c r => String c (first_n k' r)
  | _, _ => ""
  end.

Definition opt_dot (s : string) : string :=
  match s with String c r => if Ascii.eqb c "." then r else s | EmptyString => s end.

Definition obind {A B} (x : option A) (f : A -> option B) : option B :=
  match x with Some a => f a | None => None end.

(** utils.py:273, re.match.  After the seconds the pattern reads an optional
    dot, a run of digits of which the first six are captured, and Z.  The run
    is maximal: a shorter one would be followed by a digit instead of Z. *)
Definition dt_match (s : string) : option (Z * Z * Z * Z * Z * Z * option string) :=
  obind (take_digits 4 s) (fun '(y, s) => obind (expect "-" s) (fun s =>
  obind (take_digits 2 s) (fun '(mo, s) => obind (expect "-" s) (fun s =>
  obind (take_digits 2 s) (fun '(d, s) => obind (expect "T" s) (fun s =>
  obind (take_digits 2 s) (fun '(h, s) => obind (expect ":" s) (fun s =>
  obind (take_digits 2 s) (fun '(mi, s) => obind (expect ":" s) (fun s =>
  obind (take_digits 2 s) (fun '(se, s) =>
    let (run, s) := span_digits (opt_dot s) in
    obind (expect "Z" s) (fun _ =>
      Some (int_of y, int_of mo, int_of d, int_of h, int_of mi, int_of se,
            match run with EmptyString => None | _ => Some (first_n 6 run) end)
    )))))))))))).

(** Outcome of parse_datetime: a datetime, or the text itself. *)
Inductive dt_or_text := Parsed (t : datetime) | Unparsed (s : string).

(** utils.py:269-284. *)
Definition parse_datetime (s : string) : result dt_or_text :=
  match dt_match s with
  | Some (y, mo, d, h, mi, se, micro) =>
      let us := match micro with
                | None => 0
                | Some m => int_of (m ++ zeros (6 - String.length m))
                end in
      match mk_datetime y mo d h mi se us 0 with
      | Ok t => Ok (Parsed t)
      | Raise e => Raise e
      end
  | None => Ok (Unparsed s)
  end.
