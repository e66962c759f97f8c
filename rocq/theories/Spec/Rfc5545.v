(** The duration grammar of RFC 5545, section 3.3.6, with values in seconds,
    extended by the ISO 8601 year and month designators (365 and 30 days).

      dur-value  = (["+"] / "-") "P" (dur-date / dur-time / dur-week)
      dur-date   = dur-day [dur-time]
      dur-time   = "T" (dur-hour / dur-minute / dur-second)
      dur-week   = 1*DIGIT "W"
      dur-hour   = 1*DIGIT "H" [dur-minute]
      dur-minute = 1*DIGIT "M" [dur-second]
      dur-second = 1*DIGIT "S"
      dur-day    = 1*DIGIT "D"                                            *)
From Coq Require Import ZArith String Ascii.
Local Open Scope string_scope.
Local Open Scope Z_scope.

Inductive digit : ascii -> Z -> Prop :=
| dig0 : digit "0" 0 | dig1 : digit "1" 1 | dig2 : digit "2" 2 | dig3 : digit "3" 3
| dig4 : digit "4" 4 | dig5 : digit "5" 5 | dig6 : digit "6" 6 | dig7 : digit "7" 7
| dig8 : digit "8" 8 | dig9 : digit "9" 9.

(** 1*DIGIT, with its decimal value. *)
Inductive number : string -> Z -> Prop :=
| num_one c v : digit c v -> number (String c "") v
| num_snoc s n c v : number s n -> digit c v -> number (s ++ String c "") (10 * n + v).

Inductive dur_second : string -> Z -> Prop :=
| ds_S s n : number s n -> dur_second (s ++ "S") n.

Inductive dur_minute : string -> Z -> Prop :=
| dm_M s n : number s n -> dur_minute (s ++ "M") (60 * n)
| dm_MS s n r v : number s n -> dur_second r v -> dur_minute (s ++ "M" ++ r) (60 * n + v).

Inductive dur_hour : string -> Z -> Prop :=
| dh_H s n : number s n -> dur_hour (s ++ "H") (3600 * n)
| dh_HM s n r v : number s n -> dur_minute r v -> dur_hour (s ++ "H" ++ r) (3600 * n + v).

Inductive dur_time : string -> Z -> Prop :=
| dti_hour s v : dur_hour s v -> dur_time ("T" ++ s) v
| dti_minute s v : dur_minute s v -> dur_time ("T" ++ s) v
| dti_second s v : dur_second s v -> dur_time ("T" ++ s) v.

Inductive dur_day : string -> Z -> Prop :=
| dd_D s n : number s n -> dur_day (s ++ "D") (86400 * n).

Inductive dur_date : string -> Z -> Prop :=
| dd_day s v : dur_day s v -> dur_date s v
| dd_daytime s v t w : dur_day s v -> dur_time t w -> dur_date (s ++ t) (v + w).

Inductive dur_week : string -> Z -> Prop :=
| dw_W s n : number s n -> dur_week (s ++ "W") (7 * 86400 * n).

(** [rfc_body weeks s v]: what may follow the P; [weeks] says whether the
    dur-week form is used. *)
Inductive rfc_body : bool -> string -> Z -> Prop :=
| rb_date s v : dur_date s v -> rfc_body false s v
| rb_time s v : dur_time s v -> rfc_body false s v
| rb_week s v : dur_week s v -> rfc_body true s v.

Inductive rfc_duration (weeks : bool) : string -> Z -> Prop :=
| rd_plain s v : rfc_body weeks s v -> rfc_duration weeks ("P" ++ s) v
| rd_plus s v : rfc_body weeks s v -> rfc_duration weeks ("+P" ++ s) v
| rd_minus s v : rfc_body weeks s v -> rfc_duration weeks ("-P" ++ s) (- v).

(** ISO 8601 years and months in front of the RFC 5545 days and time. *)
Inductive iso_days : string -> Z -> Prop :=
| id_none : iso_days "" 0
| id_day s v : dur_day s v -> iso_days s v.
Inductive iso_months : string -> Z -> Prop :=
| im_none s v : iso_days s v -> iso_months s v
| im_month s n r v : number s n -> iso_days r v -> iso_months (s ++ "M" ++ r) (30 * 86400 * n + v).
Inductive iso_years : string -> Z -> Prop :=
| iy_none s v : iso_months s v -> iso_years s v
| iy_year s n r v : number s n -> iso_months r v -> iso_years (s ++ "Y" ++ r) (365 * 86400 * n + v).
Inductive iso_body : string -> Z -> Prop :=
| ib_date s v : iso_years s v -> iso_body s v
| ib_datetime s v t w : iso_years s v -> dur_time t w -> iso_body (s ++ t) (v + w).
Inductive iso_duration : string -> Z -> Prop :=
| is_plain s v : iso_body s v -> iso_duration ("P" ++ s) v
| is_plus s v : iso_body s v -> iso_duration ("+P" ++ s) v
| is_minus s v : iso_body s v -> iso_duration ("-P" ++ s) (- v).
