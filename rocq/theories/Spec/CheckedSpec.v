(** Vocabulary for C88: what preflight makes of events and report offers. *)
From Coq Require Import ZArith String List Bool.
From Verif.Base Require Import PyStr Dict.
From Verif.Model Require Import Measurements Xml XmlParty.
Import ListNotations.
Local Open Scope string_scope.
Local Open Scope Z_scope.

(** ** Events *)

(** The intervals of a signal last [z] together; each says how long it lasts. *)
Definition lasting (z : Z) (s : signal) : Prop := exists ds, map i_duration (s_intervals s) = map Some ds /\ z = fold_right Z.add 0 ds.
Definition a_zero (n : number) : Prop := n = NInt 0 \/ n = NFloat "0.0" \/ n = NFloat "-0.0".
(** A level of a SIMPLE signal. *)
Definition a_level (n : number) : Prop := a_zero n \/ In n [NInt 1; NInt 2; NInt 3; NFloat "1.0"; NFloat "2.0"; NFloat "3.0"].
Definition levels (s : signal) : Prop := s_name s = "SIMPLE" -> Forall (fun i => a_level (i_payload i)) (s_intervals s).

(** The current value of a SIMPLE signal becomes zero, whatever it was. *)
Definition settled_signal (status : string) (s s' : signal) : Prop :=
  s_intervals s' = s_intervals s /\ s_name s' = s_name s /\ s_type s' = s_type s /\ s_id s' = s_id s /\ s_measurement s' = s_measurement s /\
  (s_current_value s' = s_current_value s /\ (s_name s = "SIMPLE" /\ status <> "ACTIVE" -> exists n, s_current_value s = Some n /\ a_zero n) \/
   s_current_value s' = Some (NInt 0) /\ s_name s = "SIMPLE" /\ status <> "ACTIVE" /\ ~ exists n, s_current_value s = Some n /\ a_zero n).
(** The event is sent as [e']: it lasts as long as its signals, and its signals
    are settled. *)
Definition settled_period (z : Z) (a a' : active_period) : Prop :=
  a_dtstart a' = a_dtstart a /\ a_duration a' = z /\ a_startafter a' = a_startafter a /\ a_notification a' = a_notification a /\ a_ramp_up a' = a_ramp_up a /\ a_recovery a' = a_recovery a.
Definition settled (e e' : event) : Prop :=
  e_descriptor e' = e_descriptor e /\ e_targets e' = e_targets e /\ Forall levels (e_signals e) /\
  Forall2 (settled_signal (d_status (e_descriptor e))) (e_signals e) (e_signals e') /\
  (exists z, Forall (lasting z) (e_signals e) /\ (e_signals e = [] -> z = a_duration (e_active_period e)) /\ settled_period z (e_active_period e) (e_active_period e')) /\
  (In (e_response_required e) ["always"; "never"] /\ e_response_required e' = e_response_required e \/ ~ In (e_response_required e) ["always"; "never"] /\ e_response_required e' = "always").
(** An event that cannot be sent: an interval does not say how long it lasts,
    the signals do not last equally long, or a SIMPLE signal has something that
    is not a level. *)
Definition senseless (e : event) : Prop :=
  (exists s i, In s (e_signals e) /\ In i (s_intervals s) /\ i_duration i = None) \/
  (exists s s' z z', In s (e_signals e) /\ In s' (e_signals e) /\ lasting z s /\ lasting z' s' /\ z <> z') \/
  (exists s, In s (e_signals e) /\ ~ levels s).

(** ** Offers *)

(** Capitals aside. *)
Definition same_letters (a b : string) : Prop := lower a = lower b.
(** The measurement as it is sent: described as the schema has it, or as a
    custom unit. *)
Definition settled_measurement (m m' : measurement) : Prop :=
  m_unit m' = m_unit m /\ m_pulse_factor m' = m_pulse_factor m /\ m_scale m' = m_scale m /\ m_power m' = m_power m /\
  ((exists required units, get String.eqb (m_name m) measurement_descriptions = Some required /\ get String.eqb (m_name m) acceptable_units = Some units /\
     same_letters (m_description m) required /\ In (m_unit m) units /\ m_name m' = m_name m /\ m_description m' = required) \/
   (get String.eqb (m_name m) measurement_descriptions = None /\ m_name m' = "customUnit" /\ m_description m' = m_description m)) /\
  (contains "power" (m_name m) = true -> m_power m <> None) /\ In (m_name m') (map fst measurement_namespaces).
Definition settled_opt (o o' : option measurement) : Prop := match o, o' with None, None => True | Some m, Some m' => settled_measurement m m' | _, _ => False end.
Definition settled_description (d d' : description) : Prop :=
  rd_r_id d' = rd_r_id d /\ rd_mrid d' = rd_mrid d /\ rd_source d' = rd_source d /\ rd_type d' = rd_type d /\ rd_reading d' = rd_reading d /\ rd_market d' = rd_market d /\ rd_sampling d' = rd_sampling d /\
  settled_opt (rd_measurement d) (rd_measurement d').
(** The names of reports (enums.py:173-181) get the prefix that offers have. *)
Definition settled_name (n n' : string) : Prop :=
  if existsb (String.eqb n) ["HISTORY_GREENBUTTON"; "HISTORY_USAGE"; "TELEMETRY_STATUS"; "TELEMETRY_USAGE"] then n' = "METADATA_" ++ n else n' = n.
Definition settled_offer (o o' : offer) : Prop :=
  of_duration o' = of_duration o /\ of_specifier o' = of_specifier o /\ of_created o' = of_created o /\ settled_name (of_name o) (of_name o') /\ Forall2 settled_description (of_descriptions o) (of_descriptions o').
(** A measurement that cannot be offered: it is not described as the schema
    has it, in a unit that is not of its kind, or one of power that does not say
    which. *)
Definition senseless_measurement (m : measurement) : Prop :=
  (exists required, get String.eqb (m_name m) measurement_descriptions = Some required /\ ~ same_letters (m_description m) required) \/
  (exists units, get String.eqb (m_name m) measurement_descriptions <> None /\ get String.eqb (m_name m) acceptable_units = Some units /\ ~ In (m_unit m) units) \/
  (contains "power" (m_name m) = true /\ m_power m = None) \/
  (get String.eqb (m_name m) measurement_descriptions <> None /\ ~ In (m_name m) (map fst measurement_namespaces)).
