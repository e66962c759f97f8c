(** Vocabulary for C87: the messages that OpenADR 2.0b allows, in terms of what
    they say.  Independent of Model/Schema.v: enumerations are those of the
    package (enums.py), numbers and texts are described by how they look. *)
From Coq Require Import ZArith String Ascii List Bool.
From Verif.Base Require Import Dict PyStr.
From Verif.Model Require Import DateTime Normalize Xml XmlParty XmlOpt Payloads.
From Verif.Spec Require Import XmlTextSpec WrittenSpec PayloadSpec PayloadsAnySpec.
Import ListNotations.
Local Open Scope string_scope.
Local Open Scope Z_scope.

(** ** Texts *)
Definition spacing (c : ascii) : Prop := In c ["009"; "010"; "013"; "032"]%char.
Fixpoint each (P : ascii -> Prop) (s : string) : Prop := match s with EmptyString => True | String c r => P c /\ each P r end.
Definition word (w : string) : Prop := w <> "" /\ each (fun c => ~ spacing c) w.
(** [worded t ws]: the text [t] consists of the words [ws], with white space
    around them. *)
Inductive worded : string -> list string -> Prop :=
| wd_none b : each spacing b -> worded b []
| wd_last b w : each spacing b -> word w -> worded (b ++ w) [w]
| wd_more b w c r ws : each spacing b -> word w -> spacing c -> worded r ws -> worded (b ++ w ++ String c r) (w :: ws).
(** [t] is to be read as [v]: the same words, single spaces between them. *)
Definition reads (t v : string) : Prop := exists ws, worded t ws /\ v = join " " ws.
Definition reads_one (t : string) (vs : list string) : Prop := exists v, reads t v /\ In v vs.
(** A value of one's own: x- and a name. *)
Definition own_value (v : string) : Prop := exists c r, v = "x-" ++ String c r /\ ~ spacing c.
Definition reads_own (t : string) (vs : list string) : Prop := exists v, reads t v /\ (In v vs \/ own_value v).

(** ** Numbers *)
Definition digits (s : string) : Prop := s <> "" /\ each (fun c => is_digit c = true) s.
Inductive mantissa_of : string -> Prop :=
| mt_whole a : digits a -> mantissa_of a
| mt_point a b : digits a -> (b = "" \/ digits b) -> mantissa_of (a ++ "." ++ b)
| mt_fraction b : digits b -> mantissa_of ("." ++ b).
Definition sign_of (s : string) : Prop := In s [""; "-"; "+"].
Definition exponent_of (s : string) : Prop := s = "" \/ exists e g d, s = e ++ g ++ d /\ In e ["e"; "E"] /\ sign_of g /\ digits d.
Definition float_literal (v : string) : Prop :=
  (exists g m e, v = g ++ m ++ e /\ sign_of g /\ mantissa_of m /\ exponent_of e) \/ In v ["INF"; "-INF"; "NaN"].
Definition a_number (n : number) : Prop := match n with NInt _ => True | NFloat t => exists v, reads t v /\ float_literal v end.
Definition a_percentage (n : number) : Prop :=
  match n with NInt z => 0 <= z <= 100 | NFloat t => exists v, reads t v /\ digits v /\ int_of v <= 100 end.
Definition unsigned (z : Z) : Prop := 0 <= z <= 4294967295.
(** A status code has three digits. *)
Definition a_code (z : Z) : Prop := 100 <= z <= 999.
(** A period of time is not negative. *)
Definition a_period (z : Z) : Prop := 0 <= z.
Definition if_given {A} (P : A -> Prop) (o : option A) : Prop := match o with Some a => P a | None => True end.

(** ** Enumerations: enums.py:38-193 *)
Definition event_statuses : list string := ["none"; "far"; "near"; "active"; "completed"; "cancelled"].
Definition signal_types : list string :=
  ["delta"; "level"; "multiplier"; "price"; "priceMultiplier"; "priceRelative"; "setpoint"; "x-loadControlCapacity"; "x-loadControlLevelOffset";
   "x-loadControlPercentOffset"; "x-loadControlSetpoint"].
Definition signal_names : list string :=
  ["SIMPLE"; "simple"; "ELECTRICITY_PRICE"; "ENERGY_PRICE"; "DEMAND_CHARGE"; "BID_PRICE"; "BID_LOAD"; "BID_ENERGY"; "CHARGE_STATE"; "LOAD_DISPATCH"; "LOAD_CONTROL"].
Definition scale_codes : list string := ["p"; "n"; "micro"; "m"; "c"; "d"; "k"; "M"; "G"; "T"; "none"].
Definition opt_types : list string := ["optIn"; "optOut"].
Definition opt_reasons : list string :=
  ["economic"; "emergency"; "mustRun"; "notParticipating"; "outageRunStatus"; "overrideStatus"; "participating"; "x-schedule"].
Definition reading_types : list string :=
  ["Direct Read"; "Net"; "Allocated"; "Estimated"; "Summed"; "Derived"; "Mean"; "Peak"; "Hybrid"; "Contract"; "Projected"; "x-RMS"; "x-notApplicable"].
Definition report_types : list string :=
  ["reading"; "usage"; "demand"; "setPoint"; "deltaUsage"; "deltaSetPoint"; "deltaDemand"; "baseline"; "deviation"; "avgUsage"; "avgDemand"; "operatingState";
   "upRegulationCapacityAvailable"; "downRegulationCapacityAvailable"; "regulationSetpoint"; "storedEnergy"; "targetEnergyStorage"; "availableEnergyStorage";
   "price"; "level"; "powerFactor"; "percentUsage"; "percentDemand"; "x-resourceStatus"].
Definition report_names : list string :=
  ["METADATA_HISTORY_USAGE"; "HISTORY_USAGE"; "METADATA_HISTORY_GREENBUTTON"; "HISTORY_GREENBUTTON"; "METADATA_TELEMETRY_USAGE"; "TELEMETRY_USAGE";
   "METADATA_TELEMETRY_STATUS"; "TELEMETRY_STATUS"].
(** OpenADR 2.0b; the package has no enumeration of these. *)
Definition qualities : list string :=
  ["No Quality - No Value"; "No New Value - Previous Value Used"; "Quality Bad - Non Specific"; "Quality Bad - Configuration Error"; "Quality Bad - Not Connected";
   "Quality Bad - Device Failure"; "Quality Bad - Sensor Failure"; "Quality Bad - Last Known Value"; "Quality Bad - Comm Failure"; "Quality Bad - Out of Service";
   "Quality Uncertain - Non Specific"; "Quality Uncertain - Last Usable Value"; "Quality Uncertain - Sensor Not Accurate"; "Quality Uncertain - EU Units Exceeded";
   "Quality Uncertain - Sub Normal"; "Quality Good - Non Specific"; "Quality Good - Local Override"; "Quality Limit - Field/Not"; "Quality Limit - Field/Low";
   "Quality Limit - Field/High"; "Quality Limit - Field/Constant"].
Definition profile_names : list string := ["2.0a"; "2.0b"].
Definition transport_names : list string := ["simpleHttp"; "xmpp"].

(** ** Measurements *)

(** ISO 4217, as of 2010. *)
Definition currency_codes : list string :=
  ["AED"; "AFN"; "ALL"; "AMD"; "ANG"; "AOA"; "ARS"; "AUD"; "AWG"; "AZN"; "BAM"; "BBD"; "BDT"; "BGN"; "BHD"; "BIF"; "BMD"; "BND"; "BOB"; "BOV"; "BRL"; "BSD";
   "BTN"; "BWP"; "BYR"; "BZD"; "CAD"; "CDF"; "CHE"; "CHF"; "CHW"; "CLF"; "CLP"; "CNY"; "COP"; "COU"; "CRC"; "CUC"; "CUP"; "CVE"; "CZK"; "DJF"; "DKK"; "DOP";
   "DZD"; "EEK"; "EGP"; "ERN"; "ETB"; "EUR"; "FJD"; "FKP"; "GBP"; "GEL"; "GHS"; "GIP"; "GMD"; "GNF"; "GTQ"; "GWP"; "GYD"; "HKD"; "HNL"; "HRK"; "HTG"; "HUF";
   "IDR"; "ILS"; "INR"; "IQD"; "IRR"; "ISK"; "JMD"; "JOD"; "JPY"; "KES"; "KGS"; "KHR"; "KMF"; "KPW"; "KRW"; "KWD"; "KYD"; "KZT"; "LAK"; "LBP"; "LKR"; "LRD";
   "LSL"; "LTL"; "LVL"; "LYD"; "MAD"; "MDL"; "MGA"; "MKD"; "MMK"; "MNT"; "MOP"; "MRO"; "MUR"; "MVR"; "MWK"; "MXN"; "MXV"; "MYR"; "MZN"; "NAD"; "NGN"; "NIO";
   "NOK"; "NPR"; "NZD"; "OMR"; "PAB"; "PEN"; "PGK"; "PHP"; "PKR"; "PLN"; "PYG"; "QAR"; "RON"; "RSD"; "RUB"; "RWF"; "SAR"; "SBD"; "SCR"; "SDG"; "SEK"; "SGD";
   "SHP"; "SLL"; "SOS"; "SRD"; "STD"; "SVC"; "SYP"; "SZL"; "THB"; "TJS"; "TMT"; "TND"; "TOP"; "TRY"; "TTD"; "TWD"; "TZS"; "UAH"; "UGX"; "USD"; "USN"; "USS";
   "UYI"; "UYU"; "UZS"; "VEF"; "VND"; "VUV"; "WST"; "XAF"; "XAG"; "XAU"; "XBA"; "XBB"; "XBC"; "XBD"; "XCD"; "XDR"; "XFU"; "XOF"; "XPD"; "XPF"; "XPT"; "XTS";
   "XXX"; "YER"; "ZAR"; "ZMK"; "ZWL"].
(** Name, description and unit that belong together. *)
Definition plain_units : list (string * string * string) :=
  [("voltage", "Voltage", "V"); ("energyApparent", "ApparentEnergy", "VAh"); ("energyReactive", "ReactiveEnergy", "VARh"); ("energyReal", "RealEnergy", "Wh");
   ("current", "Current", "A"); ("frequency", "Frequency", "Hz"); ("Therm", "Therm", "thm")].
Definition power_units : list (string * string * string) := [("powerApparent", "ApparentPower", "VA"); ("powerReactive", "ReactivePower", "VAR")].
Definition scaled (m : measurement) : Prop := nonzero (m_pulse_factor m) = None /\ In (m_scale m) scale_codes.
(** [bare]: is a description or unit that goes without saying left empty? *)
Definition says (bare : bool) (t v : string) : Prop := t = v \/ (bare = true /\ t = "").
Inductive a_measurement (bare : bool) (m : measurement) : Prop :=
| am_plain d u : In (m_name m, d, u) plain_units -> says bare (m_description m) d -> says bare (m_unit m) u -> scaled m -> m_power m = None -> a_measurement bare m
| am_power d u : In (m_name m, d, u) power_units -> says bare (m_description m) d -> says bare (m_unit m) u -> scaled m -> m_power m <> None -> a_measurement bare m
| am_real_power : m_name m = "powerReal" -> says bare (m_description m) "RealPower" -> reads_one (m_unit m) ["W"; "J/s"] -> scaled m -> m_power m <> None -> a_measurement bare m
| am_currency : In (m_name m) ["currency"; "currencyPerKWh"; "currencyPerThm"] -> reads_one (m_description m) ["currency"; "currencyPerKW"; "currencyPerKWh"] ->
    reads_one (m_unit m) currency_codes -> scaled m -> m_power m = None -> a_measurement bare m
| am_temperature : m_name m = "temperature" -> says bare (m_description m) "temperature" -> reads_one (m_unit m) ["celsius"; "fahrenheit"] -> scaled m -> m_power m = None -> a_measurement bare m
| am_pulses : m_name m = "pulseCount" -> says bare (m_description m) "pulse count" -> says bare (m_unit m) "count" -> nonzero (m_pulse_factor m) <> None -> m_power m = None -> a_measurement bare m
| am_custom : m_name m = "customUnit" -> scaled m -> m_power m = None -> a_measurement bare m.

(** ** Messages *)
Section Messages.
Variable uri : string -> Prop.               (* the texts that are URIs *)
Variable bare : bool.

Definition a_uri (t : string) : Prop := exists v, reads t v /\ uri v.

Definition ok_descriptor (d : descriptor) : Prop :=
  unsigned (d_modification_number d) /\ if_given unsigned (d_priority d) /\ a_uri (d_market_context d) /\ reads_one (d_status d) event_statuses.
Definition ok_active_period (a : active_period) : Prop :=
  a_period (a_duration a) /\ if_given a_period (a_startafter a) /\ if_given a_period (a_notification a) /\ if_given a_period (a_ramp_up a) /\ if_given a_period (a_recovery a).
Definition ok_interval (i : interval) : Prop := if_given a_period (i_duration i) /\ a_number (i_payload i).
Definition ok_signal (s : signal) : Prop :=
  s_intervals s <> [] /\ Forall ok_interval (s_intervals s) /\ reads_own (s_name s) signal_names /\ reads_one (s_type s) signal_types /\
  if_given (a_measurement bare) (s_measurement s) /\ if_given a_number (s_current_value s).
(** An event says which targets it has, if only that there are none. *)
Definition ok_event (e : event) : Prop :=
  ok_descriptor (e_descriptor e) /\ ok_active_period (e_active_period e) /\ e_signals e <> [] /\ Forall ok_signal (e_signals e) /\ e_targets e <> None /\
  In (e_response_required e) ["always"; "never"].
Definition ok_event_response (r : event_response) : Prop := a_code (er_code r) /\ unsigned (er_modification_number r) /\ reads_one (er_opt_type r) opt_types.
Definition ok_report_interval (i : report_interval) : Prop :=
  if_given a_period (ri_duration i) /\ if_given a_percentage (rp_confidence (ri_payload i)) /\ if_given a_number (rp_accuracy (ri_payload i)) /\
  a_number (rp_value (ri_payload i)) /\ if_given (fun t => reads_own t qualities) (rp_data_quality (ri_payload i)).
Definition ok_report (r : report) : Prop := Forall ok_report_interval (rt_intervals r) /\ if_given (fun t => t <> "" -> reads_own t report_names) (rt_name r).
Definition ok_party (p : party) : Prop := reads_one (pt_profile p) profile_names /\ reads_one (pt_transport p) transport_names.
Definition ok_profile (p : profile) : Prop :=
  reads_one (pf_name p) profile_names /\ pf_transports p <> [] /\ Forall (fun t => reads_one t transport_names) (pf_transports p).
Definition ok_created_party (c : created_party) : Prop := cp_profiles c <> [] /\ Forall ok_profile (cp_profiles c) /\ if_given a_period (cp_poll_freq c).
Definition ok_sampling (s : sampling) : Prop := a_period (sr_min s) /\ a_period (sr_max s).
Definition ok_description (d : description) : Prop :=
  reads_own (rd_type d) report_types /\ if_given (a_measurement bare) (rd_measurement d) /\ reads_own (rd_reading d) reading_types /\
  if_given (fun t => t <> "" -> a_uri t) (rd_market d) /\ if_given ok_sampling (rd_sampling d).
Definition ok_offer (o : offer) : Prop := if_given a_period (of_duration o) /\ Forall ok_description (of_descriptions o) /\ reads_own (of_name o) report_names.
(** A report request says how often a report is to be sent, and what is to be in it. *)
Definition ok_request (r : report_request) : Prop :=
  a_period (rr_granularity r) /\ (exists p, rr_back r = Some p /\ a_period p) /\ if_given (fun i => a_period (snd i)) (rr_interval r) /\
  rr_payloads r <> [] /\ Forall (fun p => reads_own (snd p) reading_types) (rr_payloads r).
(** There can be one target only. *)
Definition ok_opt (o : opt_message) : Prop :=
  reads_one (om_type o) opt_types /\ reads_own (om_reason o) opt_reasons /\ if_given a_uri (om_market o) /\ if_given (Forall (fun c => a_period (snd c))) (om_availability o) /\
  if_given (fun e => unsigned (snd e)) (om_event o) /\ (length (om_targets o) <= 1)%nat.
Definition ok_answer (r : answer) : Prop := a_code (an_code r).

(** [demands ns n p m texts names times cond]: by the payload [p] of a message
    with the name [n] the message [m] is meant (see PayloadSpec.v), and OpenADR
    demands [cond] of it. *)
Inductive demands (ns : string -> string) : string -> vdict -> xml -> list string -> list string -> list datetime -> Prop -> Prop :=
| d_events r q v es : demands ns "oadrDistributeEvent" (distribute_event_payload ns r q v es) (distribute_event_xml (option_map shown r) (or_empty q) v es) (some (fun r => [r_description r; r_request_id r]) (option_map shown r) ++ [or_empty q; v] ++ flat_map event_texts es) (flat_map event_names es) (flat_map event_times es)
    (if_given ok_answer r /\ Forall ok_event es)
| d_created_event r rs v : demands ns "oadrCreatedEvent" (created_event_payload r rs v) (created_event_xml (an_code r) (an_description r) rs v) ([an_description r; v] ++ flat_map event_response_texts rs) [] []
    (ok_answer r /\ Forall ok_event_response rs)
| d_reports q rs v : demands ns "oadrUpdateReport" (update_report_payload q rs v) (update_report_xml q rs v) ([q] ++ flat_map report_texts rs ++ one v) [] (flat_map report_times rs)
    (Forall ok_report rs)
| d_poll v : demands ns "oadrPoll" (poll_payload v) (poll_xml v) [v] [] []
    (True)
| d_create_party q p : demands ns "oadrCreatePartyRegistration" (create_party_payload q p) (create_party_xml q p) ([q] ++ party_texts p) [] []
    (ok_party p)
| d_created_party r c : demands ns "oadrCreatedPartyRegistration" (created_party_payload r c) (created_party_xml r c) (answer_texts r ++ created_party_texts c) [] []
    (ok_answer r /\ ok_created_party c)
| d_cancel_party q g v : demands ns "oadrCancelPartyRegistration" (cancel_party_payload q g v) (cancel_party_xml q g v) [q; g; v] [] []
    (True)
| d_canceled_party r g v : demands ns "oadrCanceledPartyRegistration" (canceled_party_payload r g v) (canceled_party_xml r g v) (answer_texts r ++ [g; v]) [] []
    (ok_answer r)
| d_query q : demands ns "oadrQueryRegistration" (query_registration_payload q) (query_registration_xml q) [q] [] []
    (True)
| d_reregistration v : demands ns "oadrRequestReregistration" (request_reregistration_payload v) (request_reregistration_xml v) [v] [] []
    (True)
| d_register_report q os v : demands ns "oadrRegisterReport" (register_report_payload ns q os v) (register_report_xml q os v) ([q] ++ flat_map offer_texts os ++ one v) (flat_map offer_names os) (map of_created os)
    (Forall ok_offer os)
| d_registered_report r rs v : demands ns "oadrRegisteredReport" (registered_report_payload r rs v) (registered_report_xml r rs v) (answer_texts r ++ flat_map request_texts rs ++ one v) [] (flat_map request_times rs)
    (ok_answer r /\ Forall ok_request rs)
| d_create_report q rs v : demands ns "oadrCreateReport" (create_report_payload q rs v) (create_report_xml q rs v) ([q] ++ flat_map request_texts rs ++ [v]) [] (flat_map request_times rs)
    (rs <> [] /\ Forall ok_request rs)
| d_created_report r ids v : demands ns "oadrCreatedReport" (pending_reports_payload r ids v) (pending_reports_xml "oadrCreatedReport" r (or_nil ids) v) (answer_texts r ++ or_nil ids ++ one v) [] []
    (ok_answer r)
| d_canceled_report r ids v : demands ns "oadrCanceledReport" (pending_reports_payload r ids v) (pending_reports_xml "oadrCanceledReport" r (or_nil ids) v) (answer_texts r ++ or_nil ids ++ one v) [] []
    (ok_answer r)
| d_response r v : demands ns "oadrResponse" (response_message_payload r v) (response_message_xml r v) (answer_texts r ++ one v) [] []
    (ok_answer r)
| d_request_event q v l : demands ns "oadrRequestEvent" (request_event_payload q v l) (request_event_xml q v l) [q; v] [] []
    (if_given unsigned l)
| d_cancel_report q i f v : demands ns "oadrCancelReport" (cancel_report_payload q i f v) (cancel_report_xml q i f v) [q; i; v] [] []
    (True)
| d_updated_report r c v : demands ns "oadrUpdatedReport" (updated_report_payload r c v) (updated_report_xml r c v) (answer_texts r ++ some cancel_texts c ++ one v) [] []
    (ok_answer r /\ if_given (fun c => iterated (cr_ids c) <> []) c)
| d_create_opt q v o : demands ns "oadrCreateOpt" (create_opt_payload q v o) (create_opt_xml q v o) ([q; v] ++ opt_texts o) [] (opt_times o)
    (ok_opt o)
| d_created_opt r i : demands ns "oadrCreatedOpt" (opt_answer_payload r i) (opt_answer_xml "oadrCreatedOpt" r i) (answer_texts r ++ [i]) [] []
    (ok_answer r)
| d_canceled_opt r i : demands ns "oadrCanceledOpt" (opt_answer_payload r i) (opt_answer_xml "oadrCanceledOpt" r i) (answer_texts r ++ [i]) [] []
    (ok_answer r)
| d_cancel_opt i v : demands ns "oadrCancelOpt" (cancel_opt_payload i v) (cancel_opt_xml i v) [i; v] [] []
    (True).
End Messages.

(** ** Sending *)

(** Texts without line breaks. *)
Definition single_line (t : string) : Prop := each (fun c => c <> "010"%char) t.
(** What else is in the payload has nothing to do with measurements. *)
Definition no_measurements (further : vdict) : Prop := forall k v d, In (k, v) further -> within v (VDict d) -> get String.eqb "ns" d = None.
(** The signature is absent, or an element that is by itself a Signature
    according to the schema for XML signatures; what the schema says about it
    does not depend on white space between elements. *)
Definition signs_validly (foreign : xml -> bool) (sign : string -> option string) : Prop :=
  (forall x y, spaced x y -> foreign x = foreign y) /\
  forall s, sign s = None \/ exists g rg attrs t cs, sign s = Some g /\ lays rg g /\ clean_xml rg /\
    means [] rg (Elem "{http://www.w3.org/2000/09/xmldsig#}Signature" attrs t cs) /\ foreign (Elem "{http://www.w3.org/2000/09/xmldsig#}Signature" attrs t cs) = true.
