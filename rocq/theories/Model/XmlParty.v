(** More messages as XML trees, in the manner of Model/Xml.v: registration,
    report offers and requests, and the short messages.

    As there, a value is printed as the text of its element; the mark-up of
    the text is not modelled. *)
From Coq Require Import ZArith String Ascii List Bool.
From Verif.Base Require Import Result Dict PyStr.
From Verif.Model Require Import Duration DateTime Text Normalize Xml.
Import ListNotations.
Local Open Scope string_scope.

(** {{ x }} for an x that is None prints the text None (jinja2, with the
    settings of messaging.py:219-224). *)
Definition printed (o : option string) : string := match o with Some s => s | None => "None" end.

(** The eiResponse part where the template tests request_id
    (oadrResponse.xml:3-11, oadrUpdatedReport.xml:3-11). *)
Record answer := mk_answer { an_code : Z; an_description : string; an_request_id : option string }.
Definition answer_tested_xml (r : answer) : xml :=
  node "eiResponse" [leaf "responseCode" (str_of_Z (an_code r)); leaf "responseDescription" (an_description r);
                     leaf "requestID" (match an_request_id r with Some s => s | None => "" end)].
(** ... and where it does not (all other templates). *)
Definition answer_xml (r : answer) : xml :=
  node "eiResponse" [leaf "responseCode" (str_of_Z (an_code r)); leaf "responseDescription" (an_description r);
                     leaf "requestID" (printed (an_request_id r))].

(** ** Registration *)

(** templates/oadrCreatePartyRegistration.xml:2-17 *)
Record party := mk_party {
  pt_registration_id : option string; pt_ven_id : option string; pt_profile : string; pt_transport : string; pt_address : option string;
  pt_report_only : bool; pt_xml_signature : bool; pt_ven_name : string; pt_pull : bool }.
Definition create_party_xml (request_id : string) (p : party) : xml :=
  Elem "oadrCreatePartyRegistration" message_attrs ""
    ([leaf "requestID" request_id] ++ opt (leaf "registrationID") (pt_registration_id p) ++ opt (leaf "venID") (pt_ven_id p)
     ++ [leaf "oadrProfileName" (pt_profile p); leaf "oadrTransportName" (pt_transport p); leaf "oadrTransportAddress" (printed (pt_address p));
         leaf "oadrReportOnly" (show_bool (pt_report_only p)); leaf "oadrXmlSignature" (show_bool (pt_xml_signature p));
         leaf "oadrVenName" (pt_ven_name p); leaf "oadrHttpPullModel" (show_bool (pt_pull p))])%list.

(** templates/oadrCreatedPartyRegistration.xml:2-40 *)
Record profile := mk_profile { pf_name : string; pf_transports : list string }.
Record created_party := mk_created_party {
  cp_registration_id : option string; cp_ven_id : option string; cp_vtn_id : string; cp_profiles : list profile; cp_poll_freq : option Z }.
Definition transport_xml (t : string) : xml := node "oadrTransport" [leaf "oadrTransportName" t].
Definition profile_xml (p : profile) : xml :=
  node "oadrProfile" [leaf "oadrProfileName" (pf_name p); node "oadrTransports" (map transport_xml (pf_transports p))].
Definition text_or_empty (o : option string) : string := match o with Some s => s | None => "" end.
Definition created_party_xml (r : answer) (c : created_party) : xml :=
  Elem "oadrCreatedPartyRegistration" message_attrs ""
    ([answer_xml r; leaf "registrationID" (text_or_empty (cp_registration_id c)); leaf "venID" (text_or_empty (cp_ven_id c)); leaf "vtnID" (cp_vtn_id c);
      node "oadrProfiles" (map profile_xml (cp_profiles c))]
     ++ opt (fun p => node "oadrRequestedOadrPollFreq" [leaf "duration" (timedeltaformat p)]) (cp_poll_freq c))%list.

(** templates/oadrCancelPartyRegistration.xml:2-6 *)
Definition cancel_party_xml (request_id registration_id ven_id : string) : xml :=
  Elem "oadrCancelPartyRegistration" message_attrs "" [leaf "requestID" request_id; leaf "registrationID" registration_id; leaf "venID" ven_id].
(** templates/oadrCanceledPartyRegistration.xml:2-10 *)
Definition canceled_party_xml (r : answer) (registration_id ven_id : string) : xml :=
  Elem "oadrCanceledPartyRegistration" message_attrs "" [answer_xml r; leaf "registrationID" registration_id; leaf "venID" ven_id].
(** templates/oadrQueryRegistration.xml:2-4 *)
Definition query_registration_xml (request_id : string) : xml :=
  Elem "oadrQueryRegistration" message_attrs "" [leaf "requestID" request_id].
(** templates/oadrRequestReregistration.xml:2-4 *)
Definition request_reregistration_xml (ven_id : string) : xml :=
  Elem "oadrRequestReregistration" message_attrs "" [leaf "venID" ven_id].

(** ** Report offers *)
Record sampling := mk_sampling { sr_min : Z; sr_max : Z; sr_on_change : bool }.
Record description := mk_description {
  rd_r_id : string; rd_mrid : option string; rd_source : option target; rd_type : string; rd_measurement : option measurement;
  rd_reading : string; rd_market : option string; rd_sampling : option sampling }.
Record offer := mk_offer {
  of_duration : option Z; of_descriptions : list description; of_specifier : string; of_name : string; of_created : datetime }.

(** templates/parts/oadrReportDescription.xml:12-38.  Lines 13-17 print
    nothing: a target has no member emix_interfaces. *)
Definition source_xml (t : target) : xml :=
  node "reportDataSource"
    (opt (leaf "groupID") (nonempty_text (t_group_id t)) ++ opt (leaf "groupName") (nonempty_text (t_group_name t))
     ++ opt (leaf "resourceID") (nonempty_text (t_resource_id t)) ++ opt (leaf "venID") (nonempty_text (t_ven_id t))
     ++ opt (leaf "partyID") (nonempty_text (t_party_id t)))%list.
Definition sampling_xml (s : sampling) : xml :=
  node "oadrSamplingRate" [leaf "oadrMinPeriod" (timedeltaformat (sr_min s)); leaf "oadrMaxPeriod" (timedeltaformat (sr_max s)); leaf "oadrOnChange" (show_bool (sr_on_change s))].
(** templates/parts/oadrReportDescription.xml:1-53, with
    parts/reportDescriptionEmix.xml:1-16, which prints what
    parts/eventSignalEmix.xml prints. *)
Definition description_xml (d : description) : xml :=
  node "oadrReportDescription"
    ([leaf "rID" (rd_r_id d)]
     ++ opt (fun s => node "reportSubject" [node "endDeviceAsset" [leaf "mrid" s]]) (nonempty_text (rd_mrid d))
     ++ opt source_xml (rd_source d)
     ++ [leaf "reportType" (rd_type d)]
     ++ opt measurement_xml (rd_measurement d)
     ++ [leaf "readingType" (rd_reading d)]
     ++ opt (leaf "marketContext") (nonempty_text (rd_market d))
     ++ opt sampling_xml (rd_sampling d))%list.
(** templates/oadrRegisterReport.xml:2-30.  The report_request_id is 0
    (client.py:703-706); a Report has no member report_id (line 11). *)
Definition offer_xml (o : offer) : xml :=
  node "oadrReport"
    (opt (fun p => node "duration" [leaf "duration" (timedeltaformat p)]) (of_duration o)
     ++ map description_xml (of_descriptions o)
     ++ [leaf "reportRequestID" "0"; leaf "reportSpecifierID" (of_specifier o); leaf "reportName" (of_name o);
         leaf "createdDateTime" (show_time (of_created o))])%list.
Definition register_report_xml (request_id : string) (os : list offer) (ven_id : option string) : xml :=
  Elem "oadrRegisterReport" message_attrs "" ([leaf "requestID" request_id] ++ map offer_xml os ++ opt (leaf "venID") ven_id)%list.

(** ** Report requests: templates/parts/oadrReportRequest.xml:1-32 *)
Record report_request := mk_report_request {
  rr_id : string; rr_specifier : string; rr_granularity : Z; rr_back : option Z; rr_interval : option (datetime * Z); rr_payloads : list (string * string) }.
Definition specifier_payload_xml (p : string * string) : xml := node "specifierPayload" [leaf "rID" (fst p); leaf "readingType" (snd p)].
Definition report_request_xml (r : report_request) : xml :=
  node "oadrReportRequest"
    [leaf "reportRequestID" (rr_id r);
     node "reportSpecifier"
       ([leaf "reportSpecifierID" (rr_specifier r); node "granularity" [leaf "duration" (timedeltaformat (rr_granularity r))]]
        ++ opt (fun p => node "reportBackDuration" [leaf "duration" (timedeltaformat p)]) (rr_back r)
        ++ opt (fun i => node "reportInterval" [node "properties" [node "dtstart" [leaf "date-time" (show_time (fst i))];
                                                                     node "duration" [leaf "duration" (timedeltaformat (snd i))]]]) (rr_interval r)
        ++ map specifier_payload_xml (rr_payloads r))%list].
(** templates/oadrRegisteredReport.xml:2-14 *)
Definition registered_report_xml (r : answer) (rs : list report_request) (ven_id : option string) : xml :=
  Elem "oadrRegisteredReport" message_attrs "" ([answer_xml r] ++ map report_request_xml rs ++ opt (leaf "venID") ven_id)%list.
(** templates/oadrCreateReport.xml:2-8 *)
Definition create_report_xml (request_id : string) (rs : list report_request) (ven_id : string) : xml :=
  Elem "oadrCreateReport" message_attrs "" ([leaf "requestID" request_id] ++ map report_request_xml rs ++ [leaf "venID" ven_id])%list.

(** ** Pending reports: templates/oadrCreatedReport.xml:2-16 and
    oadrCanceledReport.xml:2-16, which differ in [name] only *)
Definition pending_reports_xml (name : string) (r : answer) (ids : list string) (ven_id : option string) : xml :=
  Elem name message_attrs "" ([answer_xml r; node "oadrPendingReports" (map (leaf "reportRequestID") ids)] ++ opt (leaf "venID") ven_id)%list.

(** ** Short messages *)

(** templates/oadrResponse.xml:2-13 *)
Definition response_message_xml (r : answer) (ven_id : option string) : xml :=
  Elem "oadrResponse" message_attrs "" [answer_tested_xml r; leaf "venID" (printed ven_id)].
(** templates/oadrRequestEvent.xml:2-10 *)
Definition request_event_xml (request_id ven_id : string) (reply_limit : option Z) : xml :=
  Elem "oadrRequestEvent" message_attrs ""
    [node "eiRequestEvent" ([leaf "requestID" request_id; leaf "venID" ven_id] ++ opt (fun z => leaf "replyLimit" (str_of_Z z)) reply_limit)%list].
(** templates/oadrCancelReport.xml:2-7 *)
Definition cancel_report_xml (request_id report_request_id : string) (to_follow : bool) (ven_id : string) : xml :=
  Elem "oadrCancelReport" message_attrs ""
    [leaf "requestID" request_id; leaf "reportRequestID" report_request_id; leaf "reportToFollow" (show_bool to_follow); leaf "venID" ven_id].
(** templates/oadrUpdatedReport.xml:2-27.  Line 15 iterates over
    cancel_report.report_request_id: over the identifiers in a list, over the
    characters of a text. *)
Inductive request_ids := OneId (s : string) | Ids (l : list string).
Record cancel := mk_cancel { cr_request_id : string; cr_ids : request_ids; cr_to_follow : bool; cr_ven_id : option string }.
Fixpoint characters (s : string) : list string := match s with EmptyString => [] | String c r => String c EmptyString :: characters r end.
Definition iterated (r : request_ids) : list string := match r with OneId s => characters s | Ids l => l end.
Definition cancel_part_xml (c : cancel) : xml :=
  node "oadrCancelReport"
    ([leaf "requestID" (cr_request_id c)] ++ map (leaf "reportRequestID") (iterated (cr_ids c)) ++ [leaf "reportToFollow" (show_bool (cr_to_follow c))]
     ++ opt (leaf "venID") (nonempty_text (cr_ven_id c)))%list.
Definition updated_report_xml (r : answer) (c : option cancel) (ven_id : option string) : xml :=
  Elem "oadrUpdatedReport" message_attrs "" ([answer_tested_xml r] ++ opt cancel_part_xml c ++ opt (leaf "venID") ven_id)%list.
