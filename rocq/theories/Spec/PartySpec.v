(** Vocabulary for C64-C67: registration messages, report offers, report
    requests and short messages arrive complete.  Written against the values
    of a payload, as in MessageSpec. *)
From Coq Require Import ZArith String Ascii List Bool.
From Verif.Model Require Import DateTime Normalize Xml XmlParty.
From Verif.Spec Require Import MessageSpec.
Import ListNotations.
Local Open Scope string_scope.
Local Open Scope Z_scope.

(** Not empty: what the templates print of an optional text. *)
Definition given (o : option string) : option string := match o with Some s => if String.eqb s "" then None else Some s | None => None end.
Definition plain_or_empty (s : string) : Prop := s = "" \/ plain s.

(** An element around several others: a list of what is in them; None when
    there are none. *)
Definition holds_list {A} (v : val) (path : list string) (P : A -> val -> Prop) (l : list A) : Prop :=
  match l with [] => at_path path v = Some VNone | _ => holds v path (is_list P l) end.
(** Several elements side by side: nothing when there are none. *)
Definition holds_many {A} (v : val) (path : list string) (P : A -> val -> Prop) (l : list A) : Prop :=
  match l with [] => at_path path v = None | _ => holds v path (is_list P l) end.
(** An element that is sent empty for None. *)
Definition holds_or_none (v : val) (path : list string) (o : option string) : Prop :=
  match o with Some s => holds v path (is_text s) | None => at_path path v = Some VNone end.

Definition good_answer (r : answer) : Prop := plain (an_description r) /\ good plain (an_request_id r).
(** The code, the description, and the request that is answered. *)
Definition answer_arrived (r : answer) (request_id : val -> Prop) (v : val) : Prop :=
  holds v ["response_code"] (is_int (an_code r)) /\ holds v ["response_description"] (is_text (an_description r)) /\ holds v ["request_id"] request_id.
(** No request: None. *)
Definition text_or_none (o : option string) (v : val) : Prop := match o with Some s => v = VStr s | None => v = VNone end.

(** ** Registration *)
Definition good_party (p : party) : Prop :=
  good plain (pt_registration_id p) /\ good plain (pt_ven_id p) /\ plain (pt_profile p) /\ plain (pt_transport p) /\ good plain (pt_address p) /\ plain (pt_ven_name p).
Definition party_arrived_but_address (p : party) (v : val) : Prop :=
  holds_opt v ["registration_id"] is_text (pt_registration_id p) /\ holds_opt v ["ven_id"] is_text (pt_ven_id p) /\
  holds v ["profile_name"] (is_text (pt_profile p)) /\ holds v ["transport_name"] (is_text (pt_transport p)) /\
  holds v ["report_only"] (is_bool (pt_report_only p)) /\ holds v ["xml_signature"] (is_bool (pt_xml_signature p)) /\
  holds v ["ven_name"] (is_text (pt_ven_name p)) /\ holds v ["http_pull_model"] (is_bool (pt_pull p)).

Definition good_profile (p : profile) : Prop := plain (pf_name p) /\ Forall plain (pf_transports p).
Definition profile_arrived (p : profile) (v : val) : Prop :=
  holds v ["profile_name"] (is_text (pf_name p)) /\ holds_list v ["transports"] (fun t x => holds x ["transport_name"] (is_text t)) (pf_transports p).
Definition good_created_party (c : created_party) : Prop :=
  good plain (cp_registration_id c) /\ good plain (cp_ven_id c) /\ plain (cp_vtn_id c) /\ Forall good_profile (cp_profiles c) /\ good good_duration (cp_poll_freq c).
Definition created_party_arrived (c : created_party) (v : val) : Prop :=
  holds_or_none v ["registration_id"] (cp_registration_id c) /\ holds_or_none v ["ven_id"] (cp_ven_id c) /\ holds v ["vtn_id"] (is_text (cp_vtn_id c)) /\
  holds_list v ["profiles"] profile_arrived (cp_profiles c) /\ holds_opt v ["requested_oadr_poll_freq"] is_duration (cp_poll_freq c).

(** ** Report offers *)
Definition good_sampling (s : sampling) : Prop := good_duration (sr_min s) /\ good_duration (sr_max s).
Definition sampling_arrived (s : sampling) (v : val) : Prop :=
  holds v ["min_period"] (is_duration (sr_min s)) /\ holds v ["max_period"] (is_duration (sr_max s)) /\ holds v ["on_change"] (is_bool (sr_on_change s)).
Definition good_description (d : description) : Prop :=
  plain (rd_r_id d) /\ good plain_or_empty (rd_mrid d) /\ good good_target (rd_source d) /\ plain (rd_type d) /\ good good_measurement (rd_measurement d) /\
  plain (rd_reading d) /\ good plain_or_empty (rd_market d) /\ good good_sampling (rd_sampling d).
(** Each kind of target that was given. *)
Definition source_arrived (t : target) (v : val) : Prop :=
  forall k f, In (k, f) kinds -> holds_opt v [k] is_text (given (f t)).
Definition description_arrived_but_measurement (d : description) (v : val) : Prop :=
  holds v ["r_id"] (is_text (rd_r_id d)) /\ holds_opt v ["report_subject"; "end_device_asset"; "mrid"] is_text (given (rd_mrid d)) /\
  holds_opt v ["report_data_source"] source_arrived (rd_source d) /\ holds v ["report_type"] (is_text (rd_type d)) /\
  holds v ["reading_type"] (is_text (rd_reading d)) /\ holds_opt v ["market_context"] is_text (given (rd_market d)) /\
  holds_opt v ["sampling_rate"] sampling_arrived (rd_sampling d).
Definition description_arrived (d : description) (v : val) : Prop :=
  description_arrived_but_measurement d v /\ holds_opt v ["measurement"] measurement_arrived (rd_measurement d).
(** No description with a measurement comes after one without. *)
Definition descriptions_measured_first (l : list description) : Prop :=
  forall a s b t c, l = (a ++ s :: b ++ t :: c)%list -> rd_measurement s = None -> rd_measurement t = None.
Definition good_offer (o : offer) : Prop :=
  good good_duration (of_duration o) /\ Forall good_description (of_descriptions o) /\ plain (of_specifier o) /\ plain (of_name o) /\ good_time (of_created o).
(** [D] says what it means that a description arrived. *)
Definition offer_arrived (D : description -> val -> Prop) (o : offer) (v : val) : Prop :=
  holds_opt v ["duration"] is_duration (of_duration o) /\ holds_many v ["report_descriptions"] D (of_descriptions o) /\
  holds v ["report_specifier_id"] (is_text (of_specifier o)) /\ holds v ["report_name"] (is_text (of_name o)) /\
  holds v ["created_date_time"] (is_time (of_created o)).

(** ** Report requests *)
Definition good_report_request (r : report_request) : Prop :=
  plain (rr_id r) /\ plain (rr_specifier r) /\ good_duration (rr_granularity r) /\ good good_duration (rr_back r) /\
  good (fun i => good_time (fst i) /\ good_duration (snd i)) (rr_interval r) /\ Forall (fun p => plain (fst p) /\ plain (snd p)) (rr_payloads r).
Definition report_request_arrived (r : report_request) (v : val) : Prop :=
  holds v ["report_request_id"] (is_text (rr_id r)) /\
  holds v ["report_specifier"] (fun s =>
    holds s ["report_specifier_id"] (is_text (rr_specifier r)) /\ holds s ["granularity"] (is_duration (rr_granularity r)) /\
    holds_opt s ["report_back_duration"] is_duration (rr_back r) /\
    holds_opt s ["report_interval"] (fun i x => holds x ["dtstart"] (is_time (fst i)) /\ holds x ["duration"] (is_duration (snd i))) (rr_interval r) /\
    holds_many s ["specifier_payloads"] (fun p x => holds x ["r_id"] (is_text (fst p)) /\ holds x ["reading_type"] (is_text (snd p))) (rr_payloads r)).
