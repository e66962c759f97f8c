(** Recurring schedules: utils.py:499-523. *)
From Coq Require Import ZArith String List Bool.
From Verif.Base Require Import Result PyStr.
Import ListNotations.
Local Open Scope string_scope.
Local Open Scope Z_scope.

(** The dict that cron_config returns; the key 'jitter' is present only on
    request (utils.py:520-522). *)
Record cron := { cron_second : string; cron_minute : string; cron_hour : string; cron_jitter : option Z }.

Definition second_us : Z := 1000000.
Definition minute_us : Z := 60 * second_us.
Definition hour_us : Z := 3600 * second_us.

(** timedelta.seconds: the seconds field of the normalised timedelta; a
    timedelta is its number of microseconds. *)
Definition td_seconds_field (td : Z) : Z := (td / second_us) mod 86400.

(** utils.py:499-523 cron_config.  int(interval.total_seconds()/n) is an exact
    truncated division here; the float division in Python is precise enough
    not to reach the next integer from a whole number of microseconds. *)
Definition cron_config (interval : Z) (randomize_seconds : bool) : cron :=
  let '(second, minute, hour) :=
    if interval <? minute_us then ("*/" ++ str_of_Z (td_seconds_field interval), "*", "*")
    else if interval <? hour_us then ("0", "*/" ++ str_of_Z (Z.quot interval minute_us), "*")
    else if interval <? 24 * hour_us then ("0", "0", "*/" ++ str_of_Z (Z.quot interval hour_us))
    else ("0", "0", "0") in
  {| cron_second := second; cron_minute := minute; cron_hour := hour;
     cron_jitter := if randomize_seconds then Some (Z.min (Z.quot interval (10 * second_us)) 300) else None |}.
