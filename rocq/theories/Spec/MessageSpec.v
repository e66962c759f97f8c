(** Vocabulary for C14-C17: what it means that a message arrives complete.
    Written against the values of a payload, without the functions that
    produce it. *)
From Coq Require Import ZArith String Ascii List Bool.
From Verif.Base Require Import Result.
From Verif.Model Require Import DateTime Normalize Xml.
From Verif.Spec Require Import Instants TextSpec.
Import ListNotations.
Local Open Scope string_scope.
Local Open Scope Z_scope.

(** ** Texts *)
Definition digit (c : ascii) : Prop := (48 <= N_of_ascii c <= 57)%N.
Fixpoint all_chars (P : ascii -> Prop) (s : string) : Prop :=
  match s with EmptyString => True | String c r => P c /\ all_chars P r end.
(** Written like an integer / like a number: digits (and dots), perhaps after a minus sign. *)
Definition like_integer (s : string) : Prop :=
  exists r, (s = r \/ s = String "-" r) /\ r <> "" /\ all_chars digit r.
Definition like_number (s : string) : Prop :=
  exists r, (s = r \/ s = String "-" r) /\ r <> "" /\ all_chars (fun c => digit c \/ c = "."%char) r.
(** A text that is not touched by layout: one line, not empty, no white space at the ends. *)
Definition one_line (s : string) : Prop := s <> "" /\ trimmed s /\ ~ has_char "010" s.
(** ... and that is not mistaken for a number or a boolean. *)
Definition plain (s : string) : Prop := one_line s /\ s <> "true" /\ s <> "false" /\ ~ like_number s.

(** ** The stated domains *)
Definition good_time (t : datetime) : Prop := exists i, dt_denotes t i /\ four_digit_utc_year i.
Definition good_duration (td : Z) : Prop := 0 <= td /\ td mod 1000000 = 0 /\ td < 1000000000 * 86400000000.
Definition good_number (num : numbers) (n : number) : Prop :=
  match n with NInt _ => True | NFloat t => one_line t /\ t <> "true" /\ t <> "false" /\ ~ like_integer t /\ float_ok num t = true end.
Definition good {A} (P : A -> Prop) (o : option A) : Prop := match o with Some a => P a | None => True end.

(** The elements of the templates that carry an identifier or a text, and the
    names of their values in a payload. *)
Definition text_fields : list (string * string) :=
  [("venID", "ven_id"); ("vtnID", "vtn_id"); ("requestID", "request_id"); ("registrationID", "registration_id"); ("eventID", "event_id"); ("signalID", "signal_id");
   ("optID", "opt_id"); ("rID", "r_id"); ("reportRequestID", "report_request_id"); ("reportSpecifierID", "report_specifier_id"); ("eiReportID", "report_id");
   ("groupID", "group_id"); ("groupName", "group_name"); ("resourceID", "resource_id"); ("partyID", "party_id"); ("mrid", "mrid"); ("oadrVenName", "ven_name");
   ("marketContext", "market_context"); ("modificationReason", "modification_reason"); ("vtnComment", "vtn_comment"); ("eventStatus", "event_status");
   ("oadrResponseRequired", "response_required"); ("signalName", "signal_name"); ("signalType", "signal_type"); ("optType", "opt_type"); ("optReason", "opt_reason");
   ("reportName", "report_name"); ("reportType", "report_type"); ("readingType", "reading_type"); ("responseDescription", "response_description");
   ("oadrProfileName", "profile_name"); ("oadrTransportName", "transport_name"); ("oadrTransportAddress", "transport_address"); ("oadrDataQuality", "data_quality");
   ("siScaleCode", "si_scale_code")].

(** ** Payloads *)
Fixpoint member (k : string) (d : list (string * val)) : option val :=
  match d with [] => None | (k', v) :: r => if String.eqb k k' then Some v else member k r end.
Fixpoint at_path (path : list string) (v : val) : option val :=
  match path with
  | [] => Some v
  | k :: r => match v with VDict d => match member k d with Some x => at_path r x | None => None end | _ => None end
  end.
(** There is a value at [path] and it is as [P] says; there is one exactly when
    something was sent. *)
Definition holds (v : val) (path : list string) (P : val -> Prop) : Prop := exists x, at_path path v = Some x /\ P x.
Definition holds_opt {A} (v : val) (path : list string) (P : A -> val -> Prop) (o : option A) : Prop :=
  match o with Some a => holds v path (P a) | None => at_path path v = None end.

Definition is_text (s : string) (v : val) : Prop := v = VStr s.
Definition is_int (z : Z) (v : val) : Prop := v = VInt z.
Definition is_bool (b : bool) (v : val) : Prop := v = VBool b.
Definition is_duration (td : Z) (v : val) : Prop := v = VDur td.
(** The same instant. *)
Definition is_time (t : datetime) (v : val) : Prop := exists u i, v = VTime u /\ dt_denotes t i /\ dt_denotes u i.
(** The float of the number. *)
Definition is_number (n : number) (v : val) : Prop := v = VFloat (show_number n).
(** An int is not made a float in other fields. *)
Definition is_number' (n : number) (v : val) : Prop := v = match n with NInt z => VInt z | NFloat t => VFloat t end.
Definition is_list {A} (P : A -> val -> Prop) (l : list A) (v : val) : Prop := exists vs, v = VList vs /\ Forall2 P l vs.

(** ** Events *)
Definition interval_arrived (index : nat) (i : interval) (v : val) : Prop :=
  holds_opt v ["dtstart"] is_time (i_dtstart i) /\ holds_opt v ["duration"] is_duration (i_duration i) /\
  holds v ["uid"] (is_int (Z.of_nat index)) /\ holds v ["signal_payload"] (is_number (i_payload i)).

Definition nonzero_opt (o : option Z) : option Z := match o with Some z => if z =? 0 then None else Some z | None => None end.
(** The uniform representation of a measurement. *)
Definition measurement_arrived (m : measurement) (v : val) : Prop :=
  holds v ["name"] (is_text (m_name m)) /\ holds v ["description"] (is_text (m_description m)) /\ holds v ["unit"] (is_text (m_unit m)) /\
  holds_opt v ["pulse_factor"] is_int (nonzero_opt (m_pulse_factor m)) /\
  holds_opt v ["scale"] is_text (if nonzero_opt (m_pulse_factor m) then None else Some (m_scale m)) /\
  holds_opt v ["power_attributes"] (fun p x => holds x ["hertz"] (is_int (p_hertz p)) /\ holds x ["voltage"] (is_int (p_voltage p)) /\ holds x ["ac"] (is_bool (p_ac p))) (m_power m).

(** Everything of a signal but its measurement. *)
Definition signal_arrived_but_measurement (s : signal) (v : val) : Prop :=
  holds v ["intervals"] (fun x => exists vs, x = VList vs /\ length vs = length (s_intervals s) /\
     forall n i y, nth_error (s_intervals s) n = Some i -> nth_error vs n = Some y -> interval_arrived n i y) /\
  holds v ["signal_name"] (is_text (s_name s)) /\ holds v ["signal_type"] (is_text (s_type s)) /\ holds v ["signal_id"] (is_text (s_id s)) /\
  holds_opt v ["current_value"] is_number (s_current_value s).
Definition signal_arrived (s : signal) (v : val) : Prop :=
  signal_arrived_but_measurement s v /\ holds_opt v ["measurement"] measurement_arrived (s_measurement s).

(** The signals of an event, each complete. *)
Definition signals_complete (l : list signal) (v : val) : Prop := is_list signal_arrived l v.
(** No signal with a measurement comes after one without. *)
Definition measured_first (l : list signal) : Prop :=
  forall a s b t c, l = (a ++ s :: b ++ t :: c)%list -> s_measurement s = None -> s_measurement t = None.

(** The targets of one kind, in order. *)
Definition targets_of (f : target -> option string) (ts : list target) : list string :=
  flat_map (fun t => match f t with Some s => if String.eqb s "" then [] else [s] | None => [] end) ts.
Definition kinds : list (string * (target -> option string)) :=
  [("group_id", t_group_id); ("group_name", t_group_name); ("resource_id", t_resource_id); ("ven_id", t_ven_id); ("party_id", t_party_id)].
Definition targets_arrived (ts : list target) (v : val) : Prop :=
  at_path ["targets"] v = Some (VList (flat_map (fun kf => map (fun s => VDict [(fst kf, VStr s)]) (targets_of (snd kf) ts)) kinds)) /\
  forall k f, In (k, f) kinds ->
    at_path ["targets_by_type"; k] v = match targets_of f ts with [] => None | l => Some (VList (map VStr l)) end.

Definition descriptor_arrived (e : descriptor) (v : val) : Prop :=
  holds v ["event_id"] (is_text (d_event_id e)) /\ holds v ["modification_number"] (is_int (d_modification_number e)) /\
  holds_opt v ["modification_date_time"] is_time (d_modification_date_time e) /\ holds_opt v ["modification_reason"] is_text (d_modification_reason e) /\
  holds_opt v ["priority"] is_int (d_priority e) /\ holds v ["market_context"] (is_text (d_market_context e)) /\
  holds v ["created_date_time"] (is_time (d_created e)) /\ holds v ["event_status"] (is_text (d_status e)) /\
  holds_opt v ["test_event"] is_bool (d_test_event e) /\ holds_opt v ["vtn_comment"] is_text (d_vtn_comment e).
Definition period_arrived (a : active_period) (v : val) : Prop :=
  holds v ["dtstart"] (is_time (a_dtstart a)) /\ holds v ["duration"] (is_duration (a_duration a)) /\
  holds_opt v ["tolerance"; "tolerate"; "startafter"] is_duration (a_startafter a) /\
  holds_opt v ["notification"] is_duration (nonzero_opt (a_notification a)) /\ holds_opt v ["ramp_up"] is_duration (nonzero_opt (a_ramp_up a)) /\
  holds_opt v ["recovery"] is_duration (nonzero_opt (a_recovery a)).
(** [S] says what it means that the signals arrived. *)
Definition event_arrived (S : list signal -> val -> Prop) (e : event) (v : val) : Prop :=
  holds v ["event_descriptor"] (descriptor_arrived (e_descriptor e)) /\ holds v ["active_period"] (period_arrived (e_active_period e)) /\
  holds v ["event_signals"] (S (e_signals e)) /\ holds v ["response_required"] (is_text (e_response_required e)) /\
  match e_targets e with None => at_path ["targets"] v = None /\ at_path ["targets_by_type"] v = None | Some ts => targets_arrived ts v end.

Definition good_interval (num : numbers) (i : interval) : Prop :=
  good good_time (i_dtstart i) /\ good good_duration (i_duration i) /\ good_number num (i_payload i).
Definition good_measurement (m : measurement) : Prop :=
  In (m_name m) ["currency"; "currencyPerWK"; "currencyPerKWh"; "currencyPerThm"; "current"; "energyApparent"; "energyReactive"; "energyReal"; "frequency";
                 "powerApparent"; "powerReactive"; "powerReal"; "pulseCount"; "temperature"; "Therm"; "voltage"; "customUnit"] /\
  plain (m_description m) /\ plain (m_unit m) /\ plain (m_scale m).
Definition good_signal (num : numbers) (s : signal) : Prop :=
  s_intervals s <> [] /\ Forall (good_interval num) (s_intervals s) /\ plain (s_name s) /\ plain (s_type s) /\ plain (s_id s) /\
  good good_measurement (s_measurement s) /\ good (good_number num) (s_current_value s).
Definition good_descriptor (e : descriptor) : Prop :=
  plain (d_event_id e) /\ good good_time (d_modification_date_time e) /\ good plain (d_modification_reason e) /\ plain (d_market_context e) /\
  good_time (d_created e) /\ plain (d_status e) /\ good plain (d_vtn_comment e).
Definition good_period (a : active_period) : Prop :=
  good_time (a_dtstart a) /\ good_duration (a_duration a) /\ good good_duration (a_startafter a) /\ good good_duration (a_notification a) /\
  good good_duration (a_ramp_up a) /\ good good_duration (a_recovery a).
Definition good_target (t : target) : Prop :=
  forall k f, In (k, f) kinds -> good (fun s => s = "" \/ plain s) (f t).
Definition good_event (num : numbers) (e : event) : Prop :=
  good_descriptor (e_descriptor e) /\ good_period (e_active_period e) /\ e_signals e <> [] /\ Forall (good_signal num) (e_signals e) /\
  good (Forall good_target) (e_targets e) /\ plain (e_response_required e).

(** ** Opt responses *)
Definition response_arrived (r : event_response) (v : val) : Prop :=
  holds v ["response_code"] (is_int (er_code r)) /\ holds_opt v ["response_description"] is_text (er_description r) /\
  holds v ["request_id"] (is_text (er_request_id r)) /\ holds v ["event_id"] (is_text (er_event_id r)) /\
  holds v ["modification_number"] (is_int (er_modification_number r)) /\ holds v ["opt_type"] (is_text (er_opt_type r)).
Definition good_response (r : event_response) : Prop :=
  good plain (er_description r) /\ plain (er_request_id r) /\ plain (er_event_id r) /\ plain (er_opt_type r).

(** ** Reports *)
Definition report_interval_arrived (i : report_interval) (v : val) : Prop :=
  holds v ["dtstart"] (is_time (ri_dtstart i)) /\ holds_opt v ["duration"] is_duration (ri_duration i) /\
  holds v ["report_payload"; "r_id"] (is_text (rp_r_id (ri_payload i))) /\ holds v ["report_payload"; "value"] (is_number (rp_value (ri_payload i))) /\
  holds_opt v ["report_payload"; "confidence"] is_number' (rp_confidence (ri_payload i)) /\
  holds_opt v ["report_payload"; "accuracy"] is_number' (rp_accuracy (ri_payload i)) /\
  holds_opt v ["report_payload"; "data_quality"] is_text (rp_data_quality (ri_payload i)).
Definition report_arrived (r : report) (v : val) : Prop :=
  holds_opt v ["dtstart"] is_time (rt_dtstart r) /\
  match rt_intervals r with [] => at_path ["intervals"] v = None | l => holds v ["intervals"] (is_list report_interval_arrived l) end /\
  holds v ["report_request_id"] (is_text (rt_request_id r)) /\ holds v ["report_specifier_id"] (is_text (rt_specifier_id r)) /\
  holds_opt v ["report_name"] is_text (match rt_name r with Some s => if String.eqb s "" then None else Some s | None => None end) /\
  holds v ["created_date_time"] (is_time (rt_created r)).
Definition plain_number (num : numbers) (n : number) : Prop := good_number num n /\ match n with NInt _ => True | NFloat t => like_number t end.
Definition good_report_interval (num : numbers) (i : report_interval) : Prop :=
  good_time (ri_dtstart i) /\ good good_duration (ri_duration i) /\ plain (rp_r_id (ri_payload i)) /\ good_number num (rp_value (ri_payload i)) /\
  good (plain_number num) (rp_confidence (ri_payload i)) /\ good (plain_number num) (rp_accuracy (ri_payload i)) /\ good plain (rp_data_quality (ri_payload i)).
Definition good_report (num : numbers) (r : report) : Prop :=
  good good_time (rt_dtstart r) /\ Forall (good_report_interval num) (rt_intervals r) /\ plain (rt_request_id r) /\ plain (rt_specifier_id r) /\
  good (fun s => s = "" \/ plain s) (rt_name r) /\ good_time (rt_created r).
