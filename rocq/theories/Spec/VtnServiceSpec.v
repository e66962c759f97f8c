(** Vocabulary for C03-C06: requests to the VTN. *)
From Coq Require Import ZArith String List Bool.
From Verif.Base Require Import Result Dict PyStr.
From Verif.Model Require Import VtnService.
Import ListNotations.
Local Open Scope string_scope.
Local Open Scope Z_scope.

(** Messages that a VEN sends before it is registered. *)
Definition opening (t : string) : Prop := t = "oadrCreatePartyRegistration" \/ t = "oadrQueryRegistration".
Definition xml_content (rq : request) : Prop := exists rest, lower (rq_content_type rq) = ("application/xml" ++ rest)%string.
(** The message arrives, fits the schema and can be read. *)
Definition arrives (w : world) (rq : request) (body t : string) (p : payload) : Prop :=
  xml_content rq /\ rq_body rq = Ok body /\ w_hook w "before_parse" = Ok tt /\ w_schema w body = Ok tt /\ w_parse w body = Ok (t, p).

Definition for_us (cfg : config) (p : payload) : Prop :=
  pget "vtn_id" p = None \/ pget "vtn_id" p = Some (Val SNone) \/ pget "vtn_id" p = Some (Val (c_vtn cfg)).

(** The sender is known, as far as that is checked. *)
Definition registered_ven (cfg : config) (t : string) (p : payload) : Prop :=
  opening t \/ pget "ven_id" p = None \/ c_ven_lookup cfg = None \/
  exists v lookup info r, pget "ven_id" p = Some v /\ c_ven_lookup cfg = Some lookup /\ lookup 0%nat v = Ok (Some info) /\
    get String.eqb "registration_id" info = Some r /\ r <> SNone.
Definition has_lookup (cfg : config) : Prop := c_fp_lookup cfg <> None \/ c_ven_lookup cfg <> None.

(** The fingerprint on file for [ven]: fingerprint_lookup's if there is one,
    else ven_lookup's (its second call, unless the first was not made). *)
Definition on_file (cfg : config) (t : string) (ven : member) (fp : string) : Prop :=
  match c_fp_lookup cfg with
  | Some lookup => lookup ven = Ok (SStr fp) /\ fp <> ""
  | None => exists lookup n info, c_ven_lookup cfg = Some lookup /\ (opening t /\ n = 0%nat \/ ~ opening t /\ n = 1%nat) /\
              lookup n ven = Ok (Some info) /\ get String.eqb "fingerprint" info = Some (SStr fp)
  end.
Definition authentic (w : world) (cfg : config) (rq : request) (body t : string) (ven : member) : Prop :=
  exists fp, rq_cert rq = Ok (Some fp) /\ on_file cfg t ven fp /\
    (c_verify cfg = true -> w_signer w body = Ok fp /\ w_verify w body = Ok tt /\ w_replay w body = Ok tt).

(** Everything that must be the case for a handler to be called with [q]. *)
Definition may_handle (w : world) (cfg : config) (rq : request) (t : string) (q : payload) : Prop :=
  exists body p, arrives w rq body t p /\ t <> "oadrResponse" /\ for_us cfg p /\ registered_ven cfg t p /\
    (forall ven, rq_secure rq = true -> pget "ven_id" p = Some ven -> has_lookup cfg -> authentic w cfg rq body t ven) /\
    (rq_secure rq = true /\ t = "oadrCreatePartyRegistration" /\
       (exists fp, rq_cert rq = Ok fp /\ q = pset "fingerprint" (match fp with Some f => Val (SStr f) | None => Val SNone end) p) \/
     ~ (rq_secure rq = true /\ t = "oadrCreatePartyRegistration") /\ q = p) /\
    w_hook w "before_handle" = Ok tt /\ In t (c_types cfg).

(** ** Answers *)
Definition status_for (e : exn) : option Z :=
  match e with
  | XMLSyntaxError => Some 400
  | FingerprintMismatch | InvalidSignature => Some 403
  | HTTPError s => Some s
  | SendEmptyHTTPResponse => Some 200
  | ProtocolError _ _ | RequestReregistration _ => None
  | _ => Some 500
  end.
(** The text of the message can be made, and hooks do not fail. *)
Definition sendable (w : world) : Prop := (forall t p, exists s, w_render w t p = Ok s) /\ w_hook w "before_respond" = Ok tt.

(** The answer that belongs to a request (OpenADR 2.0b). *)
Definition answer_to (t : string) : string :=
  if String.eqb t "oadrCreatePartyRegistration" then "oadrCreatedPartyRegistration"
  else if String.eqb t "oadrQueryRegistration" then "oadrCreatedPartyRegistration"
  else if String.eqb t "oadrCancelPartyRegistration" then "oadrCanceledPartyRegistration"
  else if String.eqb t "oadrRequestEvent" then "oadrDistributeEvent"
  else if String.eqb t "oadrRegisterReport" then "oadrRegisteredReport"
  else if String.eqb t "oadrUpdateReport" then "oadrUpdatedReport"
  else if String.eqb t "oadrCreateOpt" then "oadrCreatedOpt"
  else if String.eqb t "oadrCancelOpt" then "oadrCanceledOpt"
  else "oadrResponse".

(** No part of the environment raises an HTTPError (which carries a status of
    its own). *)
Definition plain {A} (r : result A) : Prop := forall s, r <> Raise (HTTPError s).
Definition no_http_errors (w : world) (cfg : config) (rq : request) : Prop :=
  (forall b, plain (w_schema w b)) /\ (forall b, plain (w_parse w b)) /\ (forall b, plain (w_signer w b)) /\ (forall b, plain (w_verify w b)) /\
  (forall b, plain (w_replay w b)) /\ (forall h, plain (w_hook w h)) /\ plain (rq_body rq) /\ plain (rq_cert rq) /\
  (forall f n v, c_ven_lookup cfg = Some f -> plain (f n v)) /\ (forall f v, c_fp_lookup cfg = Some f -> plain (f v)) /\ (forall t p, plain (c_handle cfg t p)).

(** ** C68: what a handler gives *)
Definition gives (h : hresult) (t : string) (p : payload) : Prop :=
  h = HNone /\ t = "oadrResponse" /\ p = [] \/ h = HPair t HNoPayload /\ p = [] \/ h = HPair t (HDict p).
(** preflight can work on the answer *)
Definition has_lists (t : string) (p : payload) : Prop :=
  (t = "oadrDistributeEvent" -> exists v, pget "events" p = Some v) /\ (t = "oadrRegisterReport" -> exists v, pget "reports" p = Some v).
(** The VEN that an answer is for: the one that the handler names (if it is
    not empty), else the one that asked. *)
Definition addressed (asked given : payload) (v : member) : Prop :=
  (exists g, pget "ven_id" given = Some g /\ mtruthy g = true /\ v = g) \/
  ((forall g, pget "ven_id" given = Some g -> mtruthy g = false) /\ pget "ven_id" asked = Some v) \/
  (pget "ven_id" asked = None /\ exists g, pget "ven_id" given = Some g /\ mtruthy g = false /\ v = g) \/
  (pget "ven_id" asked = None /\ pget "ven_id" given = None /\ v = Val SNone).
