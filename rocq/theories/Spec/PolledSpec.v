(** What a VTN may say to a VEN that polls, and what dealing with it is. *)
From Coq Require Import ZArith String List Bool.
From Verif.Base Require Import Result.
From Verif.Model Require Import DateTime Normalize Xml Schema SchemaTypes Polled.
From Verif.Spec Require Import Timestamp TextSpec MessageSpec ClientEventSpec.
Import ListNotations.
Local Open Scope string_scope.

(** Something holds of an element and of all that is in it. *)
Fixpoint everywhere (P : xml -> Prop) (x : xml) : Prop :=
  match x with
  | Elem n a t cs => P (Elem n a t cs) /\ (fix all (cs : list xml) : Prop := match cs with [] => True | c :: cs => everywhere P c /\ all cs end) cs
  end.
Definition text_in (x : xml) : string := match x with Elem _ _ t _ => t end.

(** A time in UTC, as OpenADR has it: with a Z at its end.  (The pattern in the
    schema also allows times without one.) *)
Definition in_utc (x : xml) : Prop :=
  xml_name x = in_xcal "date-time" -> forall t, flattening (text_in x) t -> exists y mo d h mi s us, timestamp_text t y mo d h mi s us.
(** A text that is not taken for a number, a truth value or nothing. *)
Definition in_words (text : string) : Prop := forall t, flattening text t -> t <> "" /\ t <> "true" /\ t <> "false" /\ ~ like_number t.
Definition specifier_in_words (x : xml) : Prop := xml_name x = in_ei "reportSpecifierID" -> in_words (text_in x).
Definition vtn_in_words (x : xml) : Prop :=
  xml_name x = in_ei "vtnID" -> in_words (text_in x) /\ forall t, flattening (text_in x) t -> ~ lower_case t.
(** An oadrCancelReport for one report. *)
Definition for_one (x : xml) : Prop :=
  xml_name x = in_oadr "oadrCancelReport" -> match x with Elem _ _ _ cs => (length (filter (fun c => String.eqb (xml_name c) (in_ei "reportRequestID")) cs) <= 1)%nat end.

(** Handlers that answer, and times that can be counted with. *)
Definition obliging (v : ven) : Prop := (forall id n e, exists o, v_ask v id n e = Ok o) /\ (forall t d, exists b, v_over v t d = Ok b).

(** The ids of the reports that a payload names. *)
Definition names_report (p : vdict) (id : val) : Prop :=
  vget "report_request_id" p = Some id /\ (forall l, id <> VList l) \/ exists l, vget "report_request_id" p = Some (VList l) /\ In id l.
(** The VEN deals with a message: no exception comes of it, none of its own
    exceptions makes it refuse the events, and a report that it sends and that
    is to be cancelled is cancelled. *)
Definition dealt (v : ven) (t : string) (p : vdict) : Prop :=
  exists r, react v t p = Ok r
    /\ (forall e q rs, r <> Responds (Some e) q rs)
    /\ (t = "oadrCancelReport" -> forall id, names_report p id -> In id (v_requests v) -> exists q f, r = Cancels id q f).

(** The requests of a payload, and whether what they ask for is named by text. *)
Definition requests_of (p : vdict) : list val := match vget "report_requests" p with Some (VList l) => l | _ => [] end.
Definition specifier_of (request : val) : option val :=
  match request with VDict d => match vget "report_specifier" d with Some (VDict s) => vget "report_specifier_id" s | _ => None end | _ => None end.
Definition in_text (v : option val) : Prop := exists s, v = Some (VStr s).
Definition request_id_of (request : val) : option val := match request with VDict d => vget "report_request_id" d | _ => None end.
(** The VTN's id in a payload *)
Definition proper (p : vdict) : Prop := exists s, vget "vtn_id" p = Some (VStr s) /\ ~ lower_case s.
(** The events of a payload, and whether those that are to be answered say when
    they begin. *)
Definition events_of (p : vdict) : list val := match vget "events" p with Some (VList l) => l | _ => [] end.
Definition member (k : string) (v : val) : option val := match v with VDict d => vget k d | _ => None end.
Definition to_answer (event : val) : Prop := member "response_required" event = Some (VStr "always").
Definition begins (event : val) : Prop := exists a t, member "active_period" event = Some a /\ member "dtstart" a = Some (VTime t).

(** The request that a plan is for *)
Definition for_request (request : val) (p : plan) : Prop :=
  match p with Refused => True | Unoffered i | Repeated i _ _ | Later i _ _ | Once i _ => request_id_of request = Some i end.
(** An answer is about an event. *)
Definition about (event : val) (r : reply) : Prop :=
  exists d, member "event_descriptor" event = Some d /\ member "event_id" d = Some (r_event r) /\ member "modification_number" d = Some (r_modification r).
(** An event whose active period is over *)
Definition is_over (v : ven) (event : val) : Prop :=
  exists a t d, member "active_period" event = Some a /\ member "dtstart" a = Some (VTime t) /\ member "duration" a = Some (VDur d) /\ v_over v t d = Ok true.
