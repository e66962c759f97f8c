(** Durations: utils.parse_duration and utils.timedeltaformat.

    A Python timedelta is modelled by its exact total number of microseconds.
    Python stores (days, seconds, microseconds) in normal form, which is the
    same information: days = floor(us / 86400e6), and so on. *)
From Coq Require Import ZArith String Ascii List Bool.
From Verif.Base Require Import Result PyStr.
Local Open Scope string_scope.
Local Open Scope Z_scope.

Definition us_per_s : Z := 1000000.
Definition us_per_day : Z := 86400 * us_per_s.

(** timedelta.days / .seconds / .microseconds (Python documentation of datetime.timedelta). *)
Definition td_days (td : Z) : Z := td / us_per_day.
Definition td_seconds (td : Z) : Z := (td mod us_per_day) / us_per_s.
Definition td_micro (td : Z) : Z := td mod us_per_s.

(** The timedelta constructor and arithmetic raise OverflowError when
    |days| > 999999999 (Python documentation of datetime.timedelta). *)
Definition td_valid (td : Z) : bool := (-999999999 <=? td_days td) && (td_days td <=? 999999999).
Definition mk_td (us : Z) : result Z := if td_valid us then Ok us else Raise OverflowError.

(** utils.py:293, one optional group [(?:(\d+)X)?] with [int(g) if g else 0]
    of line 297.  The group is matched by the longest run of digits followed
    by the designator; a shorter run is followed by a digit, so the regular
    expression engine cannot match by backtracking either. *)
Definition opt_group (x : ascii) (s : string) : Z * string :=
  match span_digits s with
  | (EmptyString, _) => (0, s)
  | (ds, String c r) => if Ascii.eqb c x then (int_of ds, r) else (0, s)
  | (_, EmptyString) => (0, s)
  end.

(** utils.py:293, [T?]. *)
Definition opt_T (s : string) : string :=
  match s with String c r => if Ascii.eqb c "T" then r else s | EmptyString => s end.

(** utils.py:293, first alternative up to and including the P: the sign flag
    (true for a minus) and the rest. *)
Definition opt_sign_P (s : string) : option (bool * string) :=
  match s with
  | String c r =>
      if Ascii.eqb c "P" then Some (false, r)
      else if Ascii.eqb c "+" || Ascii.eqb c "-" then
        match r with
        | String c' r' => if Ascii.eqb c' "P" then Some (Ascii.eqb c "-", r') else None
        | EmptyString => None
        end
      else None
  | EmptyString => None
  end.

(** The values bound by utils.py:297. *)
Record dur_groups := {
  g_neg : bool; g_years : Z; g_months : Z; g_days : Z;
  g_hours : Z; g_minutes : Z; g_seconds : Z; g_weeks : Z }.

(** utils.py:293-297, re.match: the pattern is anchored at the start only, so
    whatever follows the match is ignored. *)
Definition dur_match (s : string) : option dur_groups :=
  match opt_sign_P s with
  | Some (neg, s0) =>
      let (y, s1) := opt_group "Y" s0 in
      let (mo, s2) := opt_group "M" s1 in
      let (d, s3) := opt_group "D" s2 in
      let s4 := opt_T s3 in
      let (h, s5) := opt_group "H" s4 in
      let (mi, s6) := opt_group "M" s5 in
      let (se, _) := opt_group "S" s6 in
      Some {| g_neg := neg; g_years := y; g_months := mo; g_days := d;
              g_hours := h; g_minutes := mi; g_seconds := se; g_weeks := 0 |}
  | None =>
      match span_digits s with
      | (String c ds, String w _) =>
          if Ascii.eqb w "W" then
            Some {| g_neg := false; g_years := 0; g_months := 0; g_days := 0;
                    g_hours := 0; g_minutes := 0; g_seconds := 0; g_weeks := int_of (String c ds) |}
          else None
      | _ => None
      end
  end.

(** What callers pass: a timedelta, a text, or something else. *)
Inductive dur_arg := DTd (td : Z) | DText (s : string) | DOther.

(** utils.py:287-309.  Not modelled: log messages; the 4300-digit limit of
    int() in recent Python versions.  [DOther]: re.match raises TypeError. *)
Definition parse_duration (v : dur_arg) : result Z :=
  match v with
  | DTd td => Ok td
  | DOther => Raise TypeError
  | DText s =>
      match dur_match s with
      | None => Raise ValueError
      | Some g =>
          let days := g_days g in
          let days := if negb (g_years g =? 0) then days + 365 * g_years g else days in
          let days := if negb (g_months g =? 0) then days + 30 * g_months g else days in
          let total := (g_weeks g * 7 + days) * us_per_day
                       + (g_hours g * 3600 + g_minutes g * 60 + g_seconds g) * us_per_s in
          match mk_td total with
          | Raise e => Raise e
          | Ok d => if g_neg g then mk_td (-1 * d) else Ok d
          end
      end
  end.

(** utils.py:328-348 for a timedelta argument (any other value is returned
    unchanged by lines 332-333). *)
Definition timedeltaformat (td : Z) : string :=
  let days := td_days td in
  let hours := td_seconds td / 3600 in
  let seconds := td_seconds td mod 3600 in
  let minutes := seconds / 60 in
  let seconds := seconds mod 60 in
  let f := "P" in
  let f := if negb (days =? 0) then f ++ str_of_Z days ++ "D" else f in
  let f := if negb (hours =? 0) || negb (minutes =? 0) || negb (seconds =? 0) then f ++ "T" else f in
  let f := if negb (hours =? 0) then f ++ str_of_Z hours ++ "H" else f in
  let f := if negb (minutes =? 0) then f ++ str_of_Z minutes ++ "M" else f in
  let f := if negb (seconds =? 0) then f ++ str_of_Z seconds ++ "S" else f in
  f.
