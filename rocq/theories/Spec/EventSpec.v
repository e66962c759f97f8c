(** Vocabulary for C24-C27. *)
From Coq Require Import ZArith String List Bool Sorting.Sorted Sorting.Permutation.
From Verif.Base Require Import Result.
From Verif.Model Require Import Objects.
Import ListNotations.
Local Open Scope Z_scope.

(** The instant at which an active period starts; [local] gives the instant of
    a naive time in the local timezone. *)
Definition starts_at (local : Z -> Z) (w : when) (t : Z) : Prop :=
  match w with Aware t' => t = t' | Naive n => t = local n end.

(** The status an active period implies at [now].  A period of no (or
    negative) duration is open-ended. *)
Inductive implied (start dur : Z) (ramp : option Z) (now : Z) : status -> Prop :=
| imp_completed : 0 < dur -> start + dur <= now -> implied start dur ramp now Completed
| imp_active : start <= now -> (0 < dur -> now < start + dur) -> implied start dur ramp now Active
| imp_near r : ramp = Some r -> start - r <= now -> now < start -> implied start dur ramp now Near
| imp_far : now < start -> (forall r, ramp = Some r -> now < start - r) -> implied start dur ramp now Far.

Definition rank (s : status) : nat :=
  match s with Far => 1 | Near => 2 | Active => 3 | Completed => 4 | _ => 0 end.

(** [covering l s e]: s is the earliest start and e the latest end in l. *)
Definition covering (l : list (Z * Z)) (s e : Z) : Prop :=
  (exists d, In (s, d) l) /\ (exists s' d', In (s', d') l /\ s' + d' = e) /\
  forall s' d', In (s', d') l -> s <= s' /\ s' + d' <= e.

(** Priority 1 is the highest; 0 or none at all is the lowest. *)
Definition priority_value (e : event) : option Z :=
  match ed_priority (ev_descriptor e) with Some 0 | None => None | p => p end.
Definition higher_priority (a b : event) : Prop :=
  match priority_value a, priority_value b with
  | Some p, Some q => p < q
  | Some _, None => True
  | None, _ => False
  end.
Definition start_time (e : event) : Z :=
  match ap_start (ev_period e) with Aware t | Naive t => t end.
Definition has_aware_start (e : event) : Prop := exists t, ap_start (ev_period e) = Aware t.

(** The OpenADR order. *)
Definition openadr_before (a b : event) : Prop :=
  (ev_status a = Active /\ ev_status b <> Active) \/
  (ev_status a = Active /\ ev_status b = Active /\
     (higher_priority a b \/ (~ higher_priority b a /\ start_time a <= start_time b))) \/
  (ev_status a <> Active /\ ev_status b <> Active /\ start_time a <= start_time b).

(** The order that order_events produces: start before priority. *)
Definition actual_before (a b : event) : Prop :=
  (ev_status a = Active /\ ev_status b <> Active) \/
  (ev_status a = Active /\ ev_status b = Active /\
     (start_time a < start_time b \/ (start_time a = start_time b /\ ~ higher_priority b a))) \/
  (ev_status a <> Active /\ ev_status b <> Active /\ start_time a <= start_time b).

(** limit and offset as documented *)
Definition slice {A} (limit offset : option nat) (l : list A) : list A :=
  let l := match offset with Some o => skipn o l | None => l end in
  match limit with Some n => firstn n l | None => l end.

(** [refreshed local now now' e e']: e' is e with the status of the moment. *)
Record refreshed (local : Z -> Z) (now now' : Z) (e e' : event) : Prop := {
  rf_cancelled : ev_status e = Cancelled -> e' = e;
  rf_status : ev_status e <> Cancelled ->
    forall t, starts_at local (ap_start (ev_period e)) t ->
    implied t (ap_duration (ev_period e)) (ap_ramp_up (ev_period e)) now (ev_status e') /\
    ap_start (ev_period e') = Aware t;
  rf_created : ed_created (ev_descriptor e') =
    if status_eq_dec (ev_status e) (ev_status e') then ed_created (ev_descriptor e) else now';
  rf_id : ev_id e' = ev_id e;
  rf_mod : ev_mod e' = ev_mod e;
  rf_context : ed_context (ev_descriptor e') = ed_context (ev_descriptor e);
  rf_modified : ed_modified (ev_descriptor e') = ed_modified (ev_descriptor e);
  rf_priority : ed_priority (ev_descriptor e') = ed_priority (ev_descriptor e);
  rf_test : ed_test (ev_descriptor e') = ed_test (ev_descriptor e);
  rf_comment : ed_comment (ev_descriptor e') = ed_comment (ev_descriptor e);
  rf_signals : ev_signals e' = ev_signals e;
  rf_targets : ev_targets e' = ev_targets e;
  rf_tbt : ev_tbt e' = ev_tbt e;
  rf_response : ev_response e' = ev_response e;
  rf_duration : ap_duration (ev_period e') = ap_duration (ev_period e);
  rf_notification : ap_notification (ev_period e') = ap_notification (ev_period e);
  rf_ramp_up : ap_ramp_up (ev_period e') = ap_ramp_up (ev_period e);
  rf_recovery : ap_recovery (ev_period e') = ap_recovery (ev_period e) }.
