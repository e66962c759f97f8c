(** What create_message is given: the payloads of the messages, as dicts.

    The dataclasses of objects.py are written as dicts of their members (the
    templates read both alike); members that no template reads are left out.
    [ns] gives the namespace of a measurement, by its name (objects.py:158-161).
    A member that is None is VNone; a key of the payload itself that the caller
    leaves out is left out here ([given]). *)
From Coq Require Import ZArith String List Bool.
From Verif.Base Require Import Result Dict PyStr.
From Verif.Model Require Import Duration DateTime Normalize Xml XmlParty XmlOpt.
Import ListNotations.
Local Open Scope string_scope.

Definition or_none {A} (f : A -> val) (o : option A) : val := match o with Some a => f a | None => VNone end.
Definition text (o : option string) : val := or_none VStr o.
Definition period (o : option Z) : val := or_none VDur o.
Definition number_val (n : number) : val := match n with NInt z => VInt z | NFloat t => VFloat t end.
Definition given (k : string) (o : option val) : vdict := match o with Some v => [(k, v)] | None => [] end.

(** ** Events: objects.py:93-233 *)
Definition descriptor_val (d : descriptor) : val := VDict [
  ("event_id", VStr (d_event_id d)); ("modification_number", VInt (d_modification_number d));
  ("modification_date_time", or_none VTime (d_modification_date_time d)); ("modification_reason", text (d_modification_reason d));
  ("priority", or_none VInt (d_priority d)); ("market_context", VStr (d_market_context d)); ("created_date_time", VTime (d_created d));
  ("event_status", VStr (d_status d)); ("test_event", or_none VBool (d_test_event d)); ("vtn_comment", text (d_vtn_comment d))].
Definition active_period_val (a : active_period) : val := VDict [
  ("dtstart", VTime (a_dtstart a)); ("duration", VDur (a_duration a)); ("tolerance", or_none (fun p => VDict [("startafter", VDur p)]) (a_startafter a));
  ("notification_period", period (a_notification a)); ("ramp_up_period", period (a_ramp_up a)); ("recovery_period", period (a_recovery a))].
Definition power_val (p : power_attributes) : val := VDict [("hertz", VInt (p_hertz p)); ("voltage", VInt (p_voltage p)); ("ac", VBool (p_ac p))].
Definition measurement_val (ns : string -> string) (m : measurement) : val := VDict [
  ("name", VStr (m_name m)); ("description", VStr (m_description m)); ("unit", VStr (m_unit m)); ("scale", VStr (m_scale m));
  ("power_attributes", or_none power_val (m_power m)); ("pulse_factor", or_none VInt (m_pulse_factor m)); ("ns", VStr (ns (m_name m)))].
Definition interval_val (i : interval) : val := VDict [
  ("dtstart", or_none VTime (i_dtstart i)); ("duration", period (i_duration i)); ("signal_payload", number_val (i_payload i))].
Definition signal_val (ns : string -> string) (s : signal) : val := VDict [
  ("intervals", VList (map interval_val (s_intervals s))); ("signal_name", VStr (s_name s)); ("signal_type", VStr (s_type s)); ("signal_id", VStr (s_id s));
  ("current_value", or_none number_val (s_current_value s)); ("measurement", or_none (measurement_val ns) (s_measurement s))].
(** objects.py:71-85.  The members that are objects are not printed. *)
Definition target_val (t : target) : val := VDict [
  ("group_id", text (t_group_id t)); ("group_name", text (t_group_name t)); ("resource_id", text (t_resource_id t)); ("ven_id", text (t_ven_id t)); ("party_id", text (t_party_id t))].
Definition event_val (ns : string -> string) (e : event) : val := VDict [
  ("event_descriptor", descriptor_val (e_descriptor e)); ("event_signals", VList (map (signal_val ns) (e_signals e)));
  ("targets", or_none (fun ts => VList (map target_val ts)) (e_targets e)); ("active_period", active_period_val (e_active_period e));
  ("response_required", VStr (e_response_required e))].

Definition answer_val (r : answer) : val := VDict [
  ("response_code", VInt (an_code r)); ("response_description", VStr (an_description r)); ("request_id", text (an_request_id r))].

(** service/event_service.py:73, service/vtn_service.py:182-189: the number of the message itself
    (left out if the payload has none); a poll is answered with the request_id None. *)
Definition distribute_event_payload (ns : string -> string) (r : option answer) (request_id : option string) (vtn_id : string) (es : list event) : vdict :=
  (given "response" (option_map answer_val r) ++ given "request_id" (option_map VStr request_id) ++ [("vtn_id", VStr vtn_id); ("events", VList (map (event_val ns) es))])%list.
(** client.py:1212-1229 and 554-563 *)
Definition event_response_val (r : event_response) : val := VDict [
  ("response_code", VInt (er_code r)); ("response_description", text (er_description r)); ("opt_type", VStr (er_opt_type r));
  ("request_id", VStr (er_request_id r)); ("modification_number", VInt (er_modification_number r)); ("event_id", VStr (er_event_id r))].
Definition created_event_payload (r : answer) (rs : list event_response) (ven_id : string) : vdict :=
  [("response", answer_val r); ("event_responses", VList (map event_response_val rs)); ("ven_id", VStr ven_id)].

(** ** Reports: objects.py:257-289, client.py:983-986.  A ReportPayload has no
    data_quality; a dict may have it. *)
Definition report_payload_val (p : report_payload) : val := VDict [
  ("r_id", VStr (rp_r_id p)); ("value", number_val (rp_value p)); ("confidence", or_none number_val (rp_confidence p));
  ("accuracy", or_none number_val (rp_accuracy p)); ("data_quality", text (rp_data_quality p))].
Definition report_interval_val (i : report_interval) : val := VDict [
  ("dtstart", VTime (ri_dtstart i)); ("report_payload", report_payload_val (ri_payload i)); ("duration", period (ri_duration i))].
Definition report_val (r : report) : val := VDict [
  ("report_specifier_id", VStr (rt_specifier_id r)); ("report_name", text (rt_name r)); ("report_request_id", VStr (rt_request_id r));
  ("report_descriptions", VList []); ("created_date_time", VTime (rt_created r)); ("dtstart", or_none VTime (rt_dtstart r));
  ("intervals", VList (map report_interval_val (rt_intervals r)))].
Definition update_report_payload (request_id : string) (rs : list report) (ven_id : option string) : vdict :=
  ([("request_id", VStr request_id); ("reports", VList (map report_val rs))] ++ given "ven_id" (option_map VStr ven_id))%list.

(** client.py:394 *)
Definition poll_payload (ven_id : string) : vdict := [("ven_id", VStr ven_id)].

(** ** Registration: client.py:433-445, 509-511, 410, 1036-1058 *)
Definition create_party_payload (request_id : string) (p : party) : vdict := [
  ("request_id", VStr request_id); ("ven_name", VStr (pt_ven_name p)); ("ven_id", text (pt_ven_id p)); ("http_pull_model", VBool (pt_pull p));
  ("xml_signature", VBool (pt_xml_signature p)); ("report_only", VBool (pt_report_only p)); ("profile_name", VStr (pt_profile p));
  ("transport_name", VStr (pt_transport p)); ("transport_address", text (pt_address p)); ("registration_id", text (pt_registration_id p))].
(** service/registration_service.py:82-116, service/vtn_service.py:109-115 *)
Definition profile_val (p : profile) : val := VDict [
  ("profile_name", VStr (pf_name p)); ("transports", VList (map (fun t => VDict [("transport_name", VStr t)]) (pf_transports p)))].
Definition created_party_payload (r : answer) (c : created_party) : vdict :=
  ([("response", answer_val r); ("vtn_id", VStr (cp_vtn_id c)); ("profiles", VList (map profile_val (cp_profiles c)))]
   ++ given "ven_id" (option_map VStr (cp_ven_id c)) ++ given "registration_id" (option_map VStr (cp_registration_id c))
   ++ given "requested_oadr_poll_freq" (option_map VDur (cp_poll_freq c)))%list.
Definition cancel_party_payload (request_id registration_id ven_id : string) : vdict :=
  [("request_id", VStr request_id); ("registration_id", VStr registration_id); ("ven_id", VStr ven_id)].
Definition canceled_party_payload (r : answer) (registration_id ven_id : string) : vdict :=
  [("response", answer_val r); ("registration_id", VStr registration_id); ("ven_id", VStr ven_id)].
Definition query_registration_payload (request_id : string) : vdict := [("request_id", VStr request_id)].
(** service/vtn_service.py:117-118 *)
Definition request_reregistration_payload (ven_id : string) : vdict := [("ven_id", VStr ven_id)].

(** ** Report offers and requests: objects.py:132-137, 245-311, client.py:700-710 *)
Definition sampling_val (s : sampling) : val := VDict [("min_period", VDur (sr_min s)); ("max_period", VDur (sr_max s)); ("on_change", VBool (sr_on_change s))].
Definition description_val (ns : string -> string) (d : description) : val := VDict [
  ("r_id", VStr (rd_r_id d)); ("market_context", text (rd_market d)); ("reading_type", VStr (rd_reading d));
  ("report_subject", or_none (fun s => VDict [("end_device_asset", VDict [("mrid", VStr s)])]) (rd_mrid d));
  ("report_data_source", or_none target_val (rd_source d)); ("report_type", VStr (rd_type d)); ("sampling_rate", or_none sampling_val (rd_sampling d));
  ("measurement", or_none (measurement_val ns) (rd_measurement d))].
Definition offer_val (ns : string -> string) (o : offer) : val := VDict [
  ("report_specifier_id", VStr (of_specifier o)); ("report_name", VStr (of_name o)); ("report_request_id", VInt 0);
  ("report_descriptions", VList (map (description_val ns) (of_descriptions o))); ("created_date_time", VTime (of_created o)); ("duration", period (of_duration o))].
Definition register_report_payload (ns : string -> string) (request_id : string) (os : list offer) (ven_id : option string) : vdict :=
  ([("request_id", VStr request_id); ("reports", VList (map (offer_val ns) os)); ("report_request_id", VInt 0)] ++ given "ven_id" (option_map VStr ven_id))%list.
(** service/report_service.py:172-207 *)
Definition specifier_payload_val (p : string * string) : val := VDict [("r_id", VStr (fst p)); ("reading_type", VStr (snd p))].
Definition report_request_val (r : report_request) : val := VDict [
  ("report_request_id", VStr (rr_id r));
  ("report_specifier", VDict [
     ("report_specifier_id", VStr (rr_specifier r)); ("granularity", VDur (rr_granularity r)); ("report_back_duration", period (rr_back r));
     ("report_interval", or_none (fun i => VDict [("dtstart", VTime (fst i)); ("duration", VDur (snd i))]) (rr_interval r));
     ("specifier_payloads", VList (map specifier_payload_val (rr_payloads r)))])].
Definition registered_report_payload (r : answer) (rs : list report_request) (ven_id : option string) : vdict :=
  ([("response", answer_val r); ("report_requests", VList (map report_request_val rs))] ++ given "ven_id" (option_map VStr ven_id))%list.
Definition create_report_payload (request_id : string) (rs : list report_request) (ven_id : string) : vdict :=
  [("request_id", VStr request_id); ("report_requests", VList (map report_request_val rs)); ("ven_id", VStr ven_id)].
(** client.py:831-840 and 950-969; without pending reports the key is left
    out (client.py:966-969). *)
Definition pending_reports_payload (r : answer) (ids : option (list string)) (ven_id : option string) : vdict :=
  ([("response", answer_val r)] ++ given "pending_reports" (option_map (fun l => VList (map (fun i => VDict [("report_request_id", VStr i)]) l)) ids)
   ++ given "ven_id" (option_map VStr ven_id))%list.

(** ** Short messages: client.py:1074-1078, service/vtn_service.py:109-115; the venID
    is None when it is not known *)
Definition response_message_payload (r : answer) (ven_id : option string) : vdict := [("response", answer_val r); ("ven_id", text ven_id)].
(** client.py:541-543 *)
Definition request_event_payload (request_id ven_id : string) (reply_limit : option Z) : vdict :=
  [("request_id", VStr request_id); ("ven_id", VStr ven_id); ("reply_limit", or_none VInt reply_limit)].
(** No code sends an oadrCancelReport of its own; a VTN can return one. *)
Definition cancel_report_payload (request_id report_request_id : string) (to_follow : bool) (ven_id : string) : vdict :=
  [("request_id", VStr request_id); ("report_request_id", VStr report_request_id); ("report_to_follow", VBool to_follow); ("ven_id", VStr ven_id)].
(** service/report_service.py:248-250; a handler may add a cancel_report *)
Definition request_ids_val (r : request_ids) : val := match r with OneId s => VStr s | Ids l => VList (map VStr l) end.
Definition cancel_val (c : cancel) : val := VDict [
  ("request_id", VStr (cr_request_id c)); ("report_request_id", request_ids_val (cr_ids c)); ("report_to_follow", VBool (cr_to_follow c)); ("ven_id", text (cr_ven_id c))].
Definition updated_report_payload (r : answer) (c : option cancel) (ven_id : option string) : vdict :=
  ([("response", answer_val r)] ++ given "cancel_report" (option_map cancel_val c) ++ given "ven_id" (option_map VStr ven_id))%list.

(** ** Opts: client.py:628-635 and 663-670, objects.py:314-338 *)
Definition available_val (c : datetime * Z) : val := VDict [("dtstart", VTime (fst c)); ("duration", VDur (snd c))].
Definition create_opt_payload (request_id ven_id : string) (o : opt_message) : vdict := [
  ("request_id", VStr request_id); ("ven_id", VStr ven_id); ("opt_type", VStr (om_type o)); ("opt_reason", VStr (om_reason o)); ("opt_id", VStr (om_id o));
  ("created_date_time", VTime (om_created o)); ("event_id", or_none (fun e => VStr (fst e)) (om_event o)); ("modification_number", or_none (fun e => VInt (snd e)) (om_event o));
  ("vavailability", or_none (fun cs => VDict [("components", VList (map available_val cs))]) (om_availability o));
  ("targets", VList (map target_val (om_targets o))); ("market_context", text (om_market o)); ("signal_target_mrid", text (om_mrid o))].
(** service/opt_service.py:76 and 95, service/vtn_service.py:109-115 *)
Definition opt_answer_payload (r : answer) (opt_id : string) : vdict := [("response", answer_val r); ("opt_id", VStr opt_id)].
Definition cancel_opt_payload (opt_id ven_id : string) : vdict := [("opt_id", VStr opt_id); ("ven_id", VStr ven_id)].
