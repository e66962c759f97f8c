(** Messages as XML trees: the templates and xmltodict.

    A message is rendered as text by a template, flattened (messaging.py:71),
    put in the envelope oadrPayload.xml and parsed by xmltodict
    (messaging.py:59).  Here the tree that the rendered text stands for is built
    directly.  This supposes that no value contains XML mark-up characters (the
    templates do not escape them); XmlText.v and C79 are about the texts.  The namespaces of all elements below are dropped
    (messaging.py:227-238). *)
From Coq Require Import ZArith String Ascii List Bool.
From Verif.Base Require Import Result Dict PyStr.
From Verif.Model Require Import Duration DateTime Text Normalize.
Import ListNotations.
Local Open Scope string_scope.

(** An element: its name, its attributes, its text (as rendered, before
    flattening) and its children. *)
Inductive xml := Elem (name : string) (attrs : list (string * string)) (text : string) (children : list xml).
Definition leaf (name text : string) : xml := Elem name [] text [].
Definition node (name : string) (children : list xml) : xml := Elem name [] "" children.
Definition xml_name (x : xml) : string := match x with Elem n _ _ _ => n end.

(** xmltodict, _DictSAXHandler.push_data: a second element of the same name
    turns the value into a list. *)
Definition push (d : vdict) (k : string) (v : val) : vdict :=
  match vget k d with
  | None => vset k v d
  | Some (VList l) => vset k (VList (l ++ [v])%list) d
  | Some x => vset k (VList [x; v]) d
  end.

(** xmltodict.parse (_DictSAXHandler.endElement): an element with only text is
    its text, stripped, or None when empty; another is a dict of its attributes
    (marked by @), its children and its text.  The text of an element inside
    the flattened message has each of its lines stripped. *)
Definition text_val (s : string) : val := match flatten_xml s with EmptyString => VNone | t => VStr t end.
Fixpoint to_val (x : xml) : val :=
  match x with
  | Elem _ [] s [] => text_val s
  | Elem _ attrs s children =>
    let d := fold_left (fun d c => push d (xml_name c) (to_val c)) children (map (fun a => ("@" ++ fst a, VStr (snd a))) attrs) in
    VDict (match text_val s with VNone => d | t => push d "#text" t end)
  end.
Definition items (x : xml) : vdict := match to_val x with VDict d => d | _ => [] end.

(** messaging.py:45-62 parse_message, for a message element that has
    attributes or children (every message has): the payload. *)
Definition parse_payload (num : numbers) (depth : nat) (message : xml) : result vdict := normalize num depth (items message).

(** What {{ ... }} prints.  A time that cannot be printed would end the
    rendering with an exception; it is printed as nothing here and excluded by
    the theorems. *)
Inductive number := NInt (z : Z) | NFloat (text : string).
Definition show_number (n : number) : string := match n with NInt z => str_of_Z z | NFloat t => t end.
Definition show_time (t : datetime) : string := match datetimeformat t with Ok s => s | Raise _ => "" end.
Definition show_bool (b : bool) : string := if b then "true" else "false".
Definition opt {A} (f : A -> xml) (o : option A) : list xml := match o with Some a => [f a] | None => [] end.

(** ** oadrDistributeEvent *)
Record interval := mk_interval { i_dtstart : option datetime; i_duration : option Z; i_payload : number }.
Record power_attributes := mk_power { p_hertz : Z; p_voltage : Z; p_ac : bool }.
Record measurement := mk_measurement {
  m_name : string; m_description : string; m_unit : string;
  m_pulse_factor : option Z; m_scale : string; m_power : option power_attributes }.
Record signal := mk_signal {
  s_intervals : list interval; s_name : string; s_type : string; s_id : string;
  s_measurement : option measurement; s_current_value : option number }.
Record descriptor := mk_descriptor {
  d_event_id : string; d_modification_number : Z; d_modification_date_time : option datetime; d_modification_reason : option string;
  d_priority : option Z; d_market_context : string; d_created : datetime; d_status : string; d_test_event : option bool; d_vtn_comment : option string }.
Record active_period := mk_active {
  a_dtstart : datetime; a_duration : Z; a_startafter : option Z;   (* tolerance['startafter'] *)
  a_notification : option Z; a_ramp_up : option Z; a_recovery : option Z }.
(** The kinds of target that eiEventTarget.xml prints. *)
Record target := mk_target { t_group_id : option string; t_group_name : option string; t_resource_id : option string; t_ven_id : option string; t_party_id : option string }.
Record event := mk_event {
  e_descriptor : descriptor; e_active_period : active_period; e_signals : list signal; e_targets : option (list target); e_response_required : string }.
Record response := mk_response { r_code : Z; r_description : string; r_request_id : string }.

(** templates/parts/eiEventDescriptor.xml:1-23 *)
Definition descriptor_xml (e : descriptor) : xml :=
  node "eventDescriptor"
    ([leaf "eventID" (d_event_id e); leaf "modificationNumber" (str_of_Z (d_modification_number e))]
     ++ opt (fun t => leaf "modificationDateTime" (show_time t)) (d_modification_date_time e)
     ++ opt (leaf "modificationReason") (d_modification_reason e)
     ++ opt (fun p => leaf "priority" (str_of_Z p)) (d_priority e)
     ++ [node "eiMarketContext" [leaf "marketContext" (d_market_context e)];
         leaf "createdDateTime" (show_time (d_created e)); leaf "eventStatus" (d_status e)]
     ++ opt (fun b => leaf "testEvent" (show_bool b)) (d_test_event e)
     ++ opt (leaf "vtnComment") (d_vtn_comment e))%list.

(** templates/parts/eiActivePeriod.xml:1-32.  A zero period is not printed. *)
Definition nonzero (o : option Z) : option Z := match o with Some 0%Z => None | o => o end.
Definition active_period_xml (a : active_period) : xml :=
  node "eiActivePeriod"
    [node "properties"
       ([node "dtstart" [leaf "date-time" (show_time (a_dtstart a))]; node "duration" [leaf "duration" (timedeltaformat (a_duration a))]]
        ++ opt (fun p => node "tolerance" [node "tolerate" [leaf "startafter" (timedeltaformat p)]]) (a_startafter a)
        ++ opt (fun p => node "x-eiNotification" [leaf "duration" (timedeltaformat p)]) (nonzero (a_notification a))
        ++ opt (fun p => node "x-eiRampUp" [leaf "duration" (timedeltaformat p)]) (nonzero (a_ramp_up a))
        ++ opt (fun p => node "x-eiRecovery" [leaf "duration" (timedeltaformat p)]) (nonzero (a_recovery a)))%list;
     leaf "components" ""].

(** templates/parts/eventSignalEmix.xml:1-15 *)
Definition measurement_xml (m : measurement) : xml :=
  node (m_name m)
    ([leaf "itemDescription" (m_description m); leaf "itemUnits" (m_unit m);
      match nonzero (m_pulse_factor m) with Some p => leaf "pulseFactor" (str_of_Z p) | None => leaf "siScaleCode" (m_scale m) end]
     ++ opt (fun p => node "powerAttributes" [leaf "hertz" (str_of_Z (p_hertz p)); leaf "voltage" (str_of_Z (p_voltage p)); leaf "ac" (show_bool (p_ac p))]) (m_power m))%list.

(** templates/parts/eiEventSignal.xml:4-23 *)
Definition payload_xml (name : string) (n : number) : xml := node name [node "payloadFloat" [leaf "value" (show_number n)]].
Definition interval_xml (index : nat) (i : interval) : xml :=
  node "interval"
    (opt (fun t => node "dtstart" [leaf "date-time" (show_time t)]) (i_dtstart i)
     ++ opt (fun p => node "duration" [leaf "duration" (timedeltaformat p)]) (i_duration i)
     ++ [node "uid" [leaf "text" (str_of_Z (Z.of_nat index))]; payload_xml "signalPayload" (i_payload i)])%list.
Fixpoint intervals_xml (index : nat) (l : list interval) : list xml :=
  match l with [] => [] | i :: r => interval_xml index i :: intervals_xml (S index) r end.

(** templates/parts/eiEventSignal.xml:1-36.  The targets of a signal are not printed. *)
Definition signal_xml (s : signal) : xml :=
  node "eiEventSignal"
    ([node "intervals" (intervals_xml 0 (s_intervals s)); leaf "signalName" (s_name s); leaf "signalType" (s_type s); leaf "signalID" (s_id s)]
     ++ opt measurement_xml (s_measurement s)
     ++ opt (payload_xml "currentValue") (s_current_value s))%list.

(** templates/parts/eiEventTarget.xml:1-38.  emix_interfaces is not a member
    of a target, so lines 2-8 print nothing. *)
Definition target_xmls (name : string) (member : target -> option string) (ts : list target) : list xml :=
  flat_map (fun t => match member t with Some EmptyString | None => [] | Some s => [leaf name s] end) ts.
Definition event_target_xml (ts : list target) : xml :=
  node "eiTarget"
    (target_xmls "groupID" t_group_id ts ++ target_xmls "groupName" t_group_name ts ++ target_xmls "resourceID" t_resource_id ts
     ++ target_xmls "venID" t_ven_id ts ++ target_xmls "partyID" t_party_id ts)%list.

(** templates/parts/eiEvent.xml:1-21, for an event without report requests
    (lines 10-16 include a template that does not exist). *)
Definition event_xml (e : event) : xml :=
  node "oadrEvent"
    [node "eiEvent"
       ([descriptor_xml (e_descriptor e); active_period_xml (e_active_period e); node "eiEventSignals" (map signal_xml (e_signals e))]
        ++ opt event_target_xml (e_targets e))%list;
     leaf "oadrResponseRequired" (e_response_required e)].

Definition response_xml (r : response) : xml :=
  node "eiResponse" [leaf "responseCode" (str_of_Z (r_code r)); leaf "responseDescription" (r_description r); leaf "requestID" (r_request_id r)].

Definition message_attrs : list (string * string) := [("schemaVersion", "2.0b")].

(** templates/oadrDistributeEvent.xml:1-15 *)
Definition distribute_event_xml (r : option response) (request_id vtn_id : string) (es : list event) : xml :=
  Elem "oadrDistributeEvent" message_attrs ""
    (opt response_xml r ++ [leaf "requestID" request_id; leaf "vtnID" vtn_id] ++ map event_xml es)%list.

(** ** oadrCreatedEvent: templates/oadrCreatedEvent.xml:1-33, with event
    responses (without, lines 7-8 print the request_id of the response). *)
Record event_response := mk_event_response {
  er_code : Z; er_description : option string; er_request_id : string; er_event_id : string; er_modification_number : Z; er_opt_type : string }.
Definition event_response_xml (r : event_response) : xml :=
  node "eventResponse"
    ([leaf "responseCode" (str_of_Z (er_code r))] ++ opt (leaf "responseDescription") (er_description r)
     ++ [leaf "requestID" (er_request_id r);
         node "qualifiedEventID" [leaf "eventID" (er_event_id r); leaf "modificationNumber" (str_of_Z (er_modification_number r))];
         leaf "optType" (er_opt_type r)])%list.
Definition created_event_xml (code : Z) (description : string) (rs : list event_response) (ven_id : string) : xml :=
  Elem "oadrCreatedEvent" message_attrs ""
    [node "eiCreatedEvent"
       [node "eiResponse" [leaf "responseCode" (str_of_Z code); leaf "responseDescription" description; leaf "requestID" ""];
        node "eventResponses" (map event_response_xml rs);
        leaf "venID" ven_id]].

(** ** oadrUpdateReport: templates/oadrUpdateReport.xml:1-64, for reports
    without report descriptions (a VEN's reports with values have none).
    A Report has no member report_id, so that it is printed as nothing. *)
Record report_payload := mk_payload { rp_r_id : string; rp_confidence : option number; rp_accuracy : option number; rp_value : number; rp_data_quality : option string }.
Record report_interval := mk_report_interval { ri_dtstart : datetime; ri_duration : option Z; ri_payload : report_payload }.
Record report := mk_report {
  rt_dtstart : option datetime; rt_intervals : list report_interval; rt_request_id : string; rt_specifier_id : string; rt_name : option string; rt_created : datetime }.
Definition report_interval_xml (i : report_interval) : xml :=
  let p := ri_payload i in
  node "interval"
    ([node "dtstart" [leaf "date-time" (show_time (ri_dtstart i))]]
     ++ opt (fun p => node "duration" [leaf "duration" (timedeltaformat p)]) (ri_duration i)
     ++ [node "oadrReportPayload"
           ([leaf "rID" (rp_r_id p)]
            ++ opt (fun n => leaf "confidence" (show_number n)) (rp_confidence p)
            ++ opt (fun n => leaf "accuracy" (show_number n)) (rp_accuracy p)
            ++ [node "payloadFloat" [leaf "value" (show_number (rp_value p))]]
            ++ opt (leaf "oadrDataQuality") (rp_data_quality p))])%list.
Definition nonempty_text (o : option string) : option string := match o with Some EmptyString => None | o => o end.
Definition report_xml (r : report) : xml :=
  node "oadrReport"
    (opt (fun t => node "dtstart" [leaf "date-time" (show_time t)]) (rt_dtstart r)
     ++ match rt_intervals r with [] => [] | l => [node "intervals" (map report_interval_xml l)] end
     ++ [leaf "eiReportID" ""; leaf "reportRequestID" (rt_request_id r); leaf "reportSpecifierID" (rt_specifier_id r)]
     ++ opt (leaf "reportName") (nonempty_text (rt_name r))
     ++ [leaf "createdDateTime" (show_time (rt_created r))])%list.
Definition update_report_xml (request_id : string) (rs : list report) (ven_id : option string) : xml :=
  Elem "oadrUpdateReport" message_attrs ""
    ([leaf "requestID" request_id] ++ map report_xml rs ++ opt (leaf "venID") ven_id)%list.

(** A report of another VEN, with one interval whose value is sent as an
    integer: utils.py:231-241 has code for it, this package's template never
    prints it, and the schema of OpenADR 2.0b has no such element. *)
Definition int_interval_xml (t : datetime) (r_id : string) (z : Z) : xml :=
  node "interval" [node "dtstart" [leaf "date-time" (show_time t)];
                   node "oadrReportPayload" [leaf "rID" r_id; node "payloadInt" [leaf "value" (str_of_Z z)]]].
Definition int_report_xml (request_id : string) (report_request_id specifier_id : string) (created : datetime) (t : datetime) (r_id : string) (z : Z) : xml :=
  Elem "oadrUpdateReport" message_attrs ""
    [leaf "requestID" request_id;
     node "oadrReport" [node "intervals" [int_interval_xml t r_id z]; leaf "eiReportID" ""; leaf "reportRequestID" report_request_id;
                        leaf "reportSpecifierID" specifier_id; leaf "createdDateTime" (show_time created)]].

(** ** oadrPoll: templates/oadrPoll.xml:1-4 *)
Definition poll_xml (ven_id : string) : xml := Elem "oadrPoll" message_attrs "" [leaf "venID" ven_id].
