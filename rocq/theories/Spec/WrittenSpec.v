(** Vocabulary for C80: the messages of the package, and what users put in
    them as text. *)
From Coq Require Import ZArith String List Bool.
From Verif.Model Require Import DateTime Xml XmlParty XmlOpt.
Import ListNotations.
Local Open Scope string_scope.

Definition some {A} (f : A -> list string) (o : option A) : list string := match o with Some a => f a | None => [] end.
Definition one (o : option string) : list string := some (fun s => [s]) o.

(** What is not listed is a time, a duration, an integer or a truth value.  A
    float is a text: its digits are those that Python prints. *)
Definition number_texts (n : number) : list string := match n with NInt _ => [] | NFloat t => [t] end.
Definition measurement_texts (m : measurement) : list string := [m_description m; m_unit m; m_scale m].
Definition signal_texts (s : signal) : list string :=
  (flat_map (fun i => number_texts (i_payload i)) (s_intervals s) ++ [s_name s; s_type s; s_id s] ++ some measurement_texts (s_measurement s) ++ some number_texts (s_current_value s))%list.
Definition descriptor_texts (d : descriptor) : list string :=
  ([d_event_id d; d_market_context d; d_status d] ++ one (d_modification_reason d) ++ one (d_vtn_comment d))%list.
Definition target_texts (t : target) : list string :=
  (one (t_group_id t) ++ one (t_group_name t) ++ one (t_resource_id t) ++ one (t_ven_id t) ++ one (t_party_id t))%list.
Definition event_texts (e : event) : list string :=
  (descriptor_texts (e_descriptor e) ++ flat_map signal_texts (e_signals e) ++ some (flat_map target_texts) (e_targets e) ++ [e_response_required e])%list.
Definition event_response_texts (r : event_response) : list string := ([er_request_id r; er_event_id r; er_opt_type r] ++ one (er_description r))%list.
Definition payload_texts (p : report_payload) : list string :=
  ([rp_r_id p] ++ some number_texts (rp_confidence p) ++ some number_texts (rp_accuracy p) ++ number_texts (rp_value p) ++ one (rp_data_quality p))%list.
Definition report_texts (r : report) : list string :=
  ([rt_request_id r; rt_specifier_id r] ++ one (rt_name r) ++ flat_map (fun i => payload_texts (ri_payload i)) (rt_intervals r))%list.
Definition answer_texts (r : answer) : list string := (an_description r :: one (an_request_id r))%list.
Definition party_texts (p : party) : list string :=
  ([pt_profile p; pt_transport p; pt_ven_name p] ++ one (pt_registration_id p) ++ one (pt_ven_id p) ++ one (pt_address p))%list.
Definition created_party_texts (c : created_party) : list string :=
  (one (cp_registration_id c) ++ one (cp_ven_id c) ++ [cp_vtn_id c] ++ flat_map (fun p => pf_name p :: pf_transports p) (cp_profiles c))%list.
Definition description_texts (d : description) : list string :=
  ([rd_r_id d; rd_type d; rd_reading d] ++ one (rd_mrid d) ++ some target_texts (rd_source d) ++ some measurement_texts (rd_measurement d) ++ one (rd_market d))%list.
Definition offer_texts (o : offer) : list string := ([of_specifier o; of_name o] ++ flat_map description_texts (of_descriptions o))%list.
Definition request_texts (r : report_request) : list string := ([rr_id r; rr_specifier r] ++ flat_map (fun p => [fst p; snd p]) (rr_payloads r))%list.
Definition cancel_texts (c : cancel) : list string := (cr_request_id c :: iterated (cr_ids c) ++ one (cr_ven_id c))%list.
Definition opt_texts (o : opt_message) : list string :=
  ([om_id o; om_type o; om_reason o] ++ one (om_market o) ++ some (fun e => [fst e]) (om_event o) ++ flat_map target_texts (om_targets o) ++ one (om_mrid o))%list.

(** The names of elements that users choose: those of measurements. *)
Definition measurement_names (o : option measurement) : list string := some (fun m => [m_name m]) o.
Definition event_names (e : event) : list string := flat_map (fun s => measurement_names (s_measurement s)) (e_signals e).
Definition offer_names (o : offer) : list string := flat_map (fun d => measurement_names (rd_measurement d)) (of_descriptions o).

(** The messages that the package sends: [sendable n m texts names] says that [m]
    is a message with the name [n] and with these texts and names. *)
Inductive sendable : string -> xml -> list string -> list string -> Prop :=
| s_events r q v es : sendable "oadrDistributeEvent" (distribute_event_xml r q v es) (some (fun r => [r_description r; r_request_id r]) r ++ [q; v] ++ flat_map event_texts es) (flat_map event_names es)
| s_created_event c d rs v : sendable "oadrCreatedEvent" (created_event_xml c d rs v) ([d; v] ++ flat_map event_response_texts rs) []
| s_reports q rs v : sendable "oadrUpdateReport" (update_report_xml q rs v) ([q] ++ flat_map report_texts rs ++ one v) []
| s_poll v : sendable "oadrPoll" (poll_xml v) [v] []
| s_create_party q p : sendable "oadrCreatePartyRegistration" (create_party_xml q p) ([q] ++ party_texts p) []
| s_created_party r c : sendable "oadrCreatedPartyRegistration" (created_party_xml r c) (answer_texts r ++ created_party_texts c) []
| s_cancel_party q g v : sendable "oadrCancelPartyRegistration" (cancel_party_xml q g v) [q; g; v] []
| s_canceled_party r g v : sendable "oadrCanceledPartyRegistration" (canceled_party_xml r g v) (answer_texts r ++ [g; v]) []
| s_query q : sendable "oadrQueryRegistration" (query_registration_xml q) [q] []
| s_reregistration v : sendable "oadrRequestReregistration" (request_reregistration_xml v) [v] []
| s_register_report q os v : sendable "oadrRegisterReport" (register_report_xml q os v) ([q] ++ flat_map offer_texts os ++ one v) (flat_map offer_names os)
| s_registered_report r rs v : sendable "oadrRegisteredReport" (registered_report_xml r rs v) (answer_texts r ++ flat_map request_texts rs ++ one v) []
| s_create_report q rs v : sendable "oadrCreateReport" (create_report_xml q rs v) ([q] ++ flat_map request_texts rs ++ [v]) []
| s_created_report r ids v : sendable "oadrCreatedReport" (pending_reports_xml "oadrCreatedReport" r ids v) (answer_texts r ++ ids ++ one v) []
| s_canceled_report r ids v : sendable "oadrCanceledReport" (pending_reports_xml "oadrCanceledReport" r ids v) (answer_texts r ++ ids ++ one v) []
| s_response r v : sendable "oadrResponse" (response_message_xml r v) (answer_texts r ++ one v) []
| s_request_event q v l : sendable "oadrRequestEvent" (request_event_xml q v l) [q; v] []
| s_cancel_report q i f v : sendable "oadrCancelReport" (cancel_report_xml q i f v) [q; i; v] []
| s_updated_report r c v : sendable "oadrUpdatedReport" (updated_report_xml r c v) (answer_texts r ++ some cancel_texts c ++ one v) []
| s_create_opt q v o : sendable "oadrCreateOpt" (create_opt_xml q v o) ([q; v] ++ opt_texts o) []
| s_created_opt r i : sendable "oadrCreatedOpt" (opt_answer_xml "oadrCreatedOpt" r i) (answer_texts r ++ [i]) []
| s_canceled_opt r i : sendable "oadrCanceledOpt" (opt_answer_xml "oadrCanceledOpt" r i) (answer_texts r ++ [i]) []
| s_cancel_opt i v : sendable "oadrCancelOpt" (cancel_opt_xml i v) [i; v] [].
