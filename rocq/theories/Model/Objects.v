(** Events as the library handles them: objects.py:24-235.

    An event is the same record whether the user supplied it as a dict or as
    an objects.Event.  Simplifications: all members that the code reads without
    a default are present; a target is a dict from target types to scalars
    (asdict of an objects.Target, objects.py:71-90, with its nested
    dataclasses collapsed to scalars); durations and instants are numbers of
    microseconds without overflow; all intervals of one signal are of the same
    kind (all dicts or all dataclasses). *)
From Coq Require Import ZArith String List Bool.
From Verif.Base Require Import Result Dict PyStr.
Import ListNotations.
Local Open Scope string_scope.
Local Open Scope Z_scope.

(** A datetime: timezone-aware (its instant) or naive (its wall-clock time). *)
Inductive when := Aware (t : Z) | Naive (w : Z).

(** enums.py:38-44 EVENT_STATUS *)
Inductive status := SNoneStatus | Far | Near | Active | Completed | Cancelled.

Definition status_eq_dec (a b : status) : {a = b} + {a <> b}.
Proof. decide equality. Defined.
Definition status_eqb (a b : status) : bool := if status_eq_dec a b then true else false.

(** objects.py:115-122 ActivePeriod; tolerance is not modelled. *)
Record active_period := mk_ap {
  ap_start : when;
  ap_duration : Z;
  ap_notification : option Z;
  ap_ramp_up : option Z;
  ap_recovery : option Z }.

(** objects.py:125-130 Interval *)
Record interval := mk_iv {
  iv_start : when;
  iv_duration : Z;
  iv_payload : scalar;
  iv_uid : option Z }.

(** objects.py:140-161 PowerAttributes, Measurement; acceptable_units and
    pulse_factor are not modelled here. *)
Record measurement := mk_meas {
  ms_name : string;
  ms_description : string;
  ms_unit : string;
  ms_scale : option string;
  ms_power : option (Z * bool * Z);
  ms_ns : string }.

Definition target := list (string * scalar).

(** objects.py:164-173 EventSignal *)
Record signal := mk_sg {
  sg_intervals : list interval;
  sg_name : string;
  sg_type : string;
  sg_id : scalar;
  sg_current : option scalar;
  sg_targets : option (list target);
  sg_tbt : option (list (string * list scalar));
  sg_measurement : option measurement }.

(** objects.py:93-112 EventDescriptor *)
Record descriptor := mk_ed {
  ed_id : scalar;
  ed_mod : Z;
  ed_context : string;
  ed_status : status;
  ed_created : Z;
  ed_modified : Z;
  ed_priority : option Z;   (* None: the member is missing (possible in a dict) *)
  ed_test : bool;
  ed_comment : option string }.

(** objects.py:201-208 Event *)
Record event := mk_ev {
  ev_descriptor : descriptor;
  ev_signals : list signal;
  ev_targets : option (list target);
  ev_tbt : option (list (string * list scalar));
  ev_period : active_period;
  ev_response : string }.

Definition event_eq_dec (a b : event) : {a = b} + {a <> b}.
Proof.
  repeat (decide equality; try apply Z.eq_dec; try apply string_dec; try apply scalar_eq_dec; try apply bool_dec).
Defined.
Definition event_eqb (a b : event) : bool := if event_eq_dec a b then true else false.

(** Assignments to members (utils.setmember on the path in the name). *)
Definition set_status (s : status) (e : event) : event :=
  let d := ev_descriptor e in
  mk_ev (mk_ed (ed_id d) (ed_mod d) (ed_context d) s (ed_created d) (ed_modified d) (ed_priority d) (ed_test d) (ed_comment d))
        (ev_signals e) (ev_targets e) (ev_tbt e) (ev_period e) (ev_response e).
Definition set_created (t : Z) (e : event) : event :=
  let d := ev_descriptor e in
  mk_ev (mk_ed (ed_id d) (ed_mod d) (ed_context d) (ed_status d) t (ed_modified d) (ed_priority d) (ed_test d) (ed_comment d))
        (ev_signals e) (ev_targets e) (ev_tbt e) (ev_period e) (ev_response e).
Definition set_mod (n : Z) (e : event) : event :=
  let d := ev_descriptor e in
  mk_ev (mk_ed (ed_id d) n (ed_context d) (ed_status d) (ed_created d) (ed_modified d) (ed_priority d) (ed_test d) (ed_comment d))
        (ev_signals e) (ev_targets e) (ev_tbt e) (ev_period e) (ev_response e).
Definition set_priority (p : option Z) (e : event) : event :=
  let d := ev_descriptor e in
  mk_ev (mk_ed (ed_id d) (ed_mod d) (ed_context d) (ed_status d) (ed_created d) (ed_modified d) p (ed_test d) (ed_comment d))
        (ev_signals e) (ev_targets e) (ev_tbt e) (ev_period e) (ev_response e).
Definition set_period (p : active_period) (e : event) : event :=
  mk_ev (ev_descriptor e) (ev_signals e) (ev_targets e) (ev_tbt e) p (ev_response e).
Definition set_start (w : when) (p : active_period) : active_period :=
  mk_ap w (ap_duration p) (ap_notification p) (ap_ramp_up p) (ap_recovery p).

Definition ev_id (e : event) : scalar := ed_id (ev_descriptor e).
Definition ev_status (e : event) : status := ed_status (ev_descriptor e).
Definition ev_mod (e : event) : Z := ed_mod (ev_descriptor e).
Definition ev_start (e : event) : when := ap_start (ev_period e).
