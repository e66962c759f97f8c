(** Vocabulary for C84: what is given to create_message, and the message that is
    meant by it. *)
From Coq Require Import ZArith String List Bool.
From Verif.Base Require Import Dict.
From Verif.Model Require Import DateTime Normalize Xml XmlParty XmlOpt Payloads.
From Verif.Spec Require Import WrittenSpec.
Import ListNotations.
Local Open Scope string_scope.

(** The times in a message. *)
Definition maybe {A} (o : option A) : list A := match o with Some a => [a] | None => [] end.
Definition signal_times (s : signal) : list datetime := flat_map (fun i => maybe (i_dtstart i)) (s_intervals s).
Definition event_times (e : event) : list datetime :=
  (maybe (d_modification_date_time (e_descriptor e)) ++ [d_created (e_descriptor e); a_dtstart (e_active_period e)] ++ flat_map signal_times (e_signals e))%list.
Definition report_times (r : report) : list datetime := (maybe (rt_dtstart r) ++ map ri_dtstart (rt_intervals r) ++ [rt_created r])%list.
Definition request_times (r : report_request) : list datetime := map fst (maybe (rr_interval r)).
Definition opt_times (o : opt_message) : list datetime :=
  (om_created o :: match om_availability o with Some cs => map fst cs | None => [] end)%list.

Definition or_empty (o : option string) : string := match o with Some s => s | None => "" end.
(** A text that is None is printed as such. *)
Definition shown (r : answer) : response := mk_response (an_code r) (an_description r) (match an_request_id r with Some s => s | None => "None" end).
Definition or_nil {A} (o : option (list A)) : list A := match o with Some l => l | None => [] end.

(** [meant ns n p m texts names times]: by the payload [p] of a message with the
    name [n] the message [m] is meant, with these texts, names and times. *)
Inductive meant (ns : string -> string) : string -> vdict -> xml -> list string -> list string -> list datetime -> Prop :=
| m_events r q v es : meant ns "oadrDistributeEvent" (distribute_event_payload ns r q v es) (distribute_event_xml (option_map shown r) (or_empty q) v es)
    (some (fun r => [r_description r; r_request_id r]) (option_map shown r) ++ [or_empty q; v] ++ flat_map event_texts es) (flat_map event_names es) (flat_map event_times es)
| m_created_event r rs v : meant ns "oadrCreatedEvent" (created_event_payload r rs v) (created_event_xml (an_code r) (an_description r) rs v)
    ([an_description r; v] ++ flat_map event_response_texts rs) [] []
| m_reports q rs v : meant ns "oadrUpdateReport" (update_report_payload q rs v) (update_report_xml q rs v) ([q] ++ flat_map report_texts rs ++ one v) [] (flat_map report_times rs)
| m_poll v : meant ns "oadrPoll" (poll_payload v) (poll_xml v) [v] [] []
| m_create_party q p : meant ns "oadrCreatePartyRegistration" (create_party_payload q p) (create_party_xml q p) ([q] ++ party_texts p) [] []
| m_created_party r c : meant ns "oadrCreatedPartyRegistration" (created_party_payload r c) (created_party_xml r c) (answer_texts r ++ created_party_texts c) [] []
| m_cancel_party q g v : meant ns "oadrCancelPartyRegistration" (cancel_party_payload q g v) (cancel_party_xml q g v) [q; g; v] [] []
| m_canceled_party r g v : meant ns "oadrCanceledPartyRegistration" (canceled_party_payload r g v) (canceled_party_xml r g v) (answer_texts r ++ [g; v]) [] []
| m_query q : meant ns "oadrQueryRegistration" (query_registration_payload q) (query_registration_xml q) [q] [] []
| m_reregistration v : meant ns "oadrRequestReregistration" (request_reregistration_payload v) (request_reregistration_xml v) [v] [] []
| m_register_report q os v : meant ns "oadrRegisterReport" (register_report_payload ns q os v) (register_report_xml q os v)
    ([q] ++ flat_map offer_texts os ++ one v) (flat_map offer_names os) (map of_created os)
| m_registered_report r rs v : meant ns "oadrRegisteredReport" (registered_report_payload r rs v) (registered_report_xml r rs v)
    (answer_texts r ++ flat_map request_texts rs ++ one v) [] (flat_map request_times rs)
| m_create_report q rs v : meant ns "oadrCreateReport" (create_report_payload q rs v) (create_report_xml q rs v) ([q] ++ flat_map request_texts rs ++ [v]) [] (flat_map request_times rs)
| m_created_report r ids v : meant ns "oadrCreatedReport" (pending_reports_payload r ids v) (pending_reports_xml "oadrCreatedReport" r (or_nil ids) v) (answer_texts r ++ or_nil ids ++ one v) [] []
| m_canceled_report r ids v : meant ns "oadrCanceledReport" (pending_reports_payload r ids v) (pending_reports_xml "oadrCanceledReport" r (or_nil ids) v) (answer_texts r ++ or_nil ids ++ one v) [] []
| m_response r v : meant ns "oadrResponse" (response_message_payload r v) (response_message_xml r v) (answer_texts r ++ one v) [] []
| m_request_event q v l : meant ns "oadrRequestEvent" (request_event_payload q v l) (request_event_xml q v l) [q; v] [] []
| m_cancel_report q i f v : meant ns "oadrCancelReport" (cancel_report_payload q i f v) (cancel_report_xml q i f v) [q; i; v] [] []
| m_updated_report r c v : meant ns "oadrUpdatedReport" (updated_report_payload r c v) (updated_report_xml r c v) (answer_texts r ++ some cancel_texts c ++ one v) [] []
| m_create_opt q v o : meant ns "oadrCreateOpt" (create_opt_payload q v o) (create_opt_xml q v o) ([q; v] ++ opt_texts o) [] (opt_times o)
| m_created_opt r i : meant ns "oadrCreatedOpt" (opt_answer_payload r i) (opt_answer_xml "oadrCreatedOpt" r i) (answer_texts r ++ [i]) [] []
| m_canceled_opt r i : meant ns "oadrCanceledOpt" (opt_answer_payload r i) (opt_answer_xml "oadrCanceledOpt" r i) (answer_texts r ++ [i]) [] []
| m_cancel_opt i v : meant ns "oadrCancelOpt" (cancel_opt_payload i v) (cancel_opt_xml i v) [i; v] [] [].

(** The keys of a payload that may be left out. *)
Definition optional_keys (n : string) : list string :=
  match n with
  | "oadrDistributeEvent" => ["response"; "request_id"]
  | "oadrUpdateReport" | "oadrRegisterReport" | "oadrRegisteredReport" => ["ven_id"]
  | "oadrCreatedReport" | "oadrCanceledReport" => ["pending_reports"; "ven_id"]
  | "oadrUpdatedReport" => ["cancel_report"; "ven_id"]
  | "oadrCreatedPartyRegistration" => ["ven_id"; "registration_id"; "requested_oadr_poll_freq"]
  | "oadrCancelOpt" => ["request_id"]
  | _ => []
  end.
(** Further entries of a payload, which are none of those that were left out. *)
Definition beside (n : string) (payload further : vdict) : Prop :=
  forall k, In k (optional_keys n) -> get String.eqb k payload = None -> get String.eqb k further = None.

(** The prefixes that are declared where a measurement is written. *)
Definition usual_prefix (p : string) : Prop := p = "oadr" \/ p = "power".
