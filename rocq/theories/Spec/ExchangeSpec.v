(** Vocabulary for C88: a request of a VEN and the answer to it. *)
From Coq Require Import ZArith String List Bool.
From Verif.Base Require Import Result Dict.
From Verif.Model Require Import Normalize VtnService Exchange.
From Verif.Spec Require Import VtnServiceSpec.
Import ListNotations.
Local Open Scope string_scope.
Local Open Scope Z_scope.

(** No hook of the VTN fails. *)
Definition unhindered (v : vtn) : Prop := forall h, v_hook v h = Ok tt.

(** What the handler is given: the contents of the message; for a registration
    over TLS also the fingerprint of the certificate. *)
Definition handed (n : connection) (t : string) (d : vdict) (q : payload) : Prop :=
  n_secure n = true /\ t = "oadrCreatePartyRegistration" /\
    (exists fp, n_cert n = Ok fp /\ q = pset "fingerprint" (match fp with Some f => Val (SStr f) | None => Val SNone end) (received d)) \/
  ~ (n_secure n = true /\ t = "oadrCreatePartyRegistration") /\ q = received d.

(** The answer that is made of what a handler gave: it says 200 OK to the
    number of the request, has a number of its own, is from this VTN and
    addressed to a VEN, and has every other member that the handler gave and no
    more. *)
Definition completed_with (v : vtn) (asked given p : payload) : Prop :=
  pget "response" p = Some (Resp 200 "OK" (Some (match pget "request_id" asked with Some r => r | None => Val SNone end))) /\
  pget "request_id" p = Some (Val (SStr (v_id v))) /\ pget "vtn_id" p = Some (Val (c_vtn (v_config v))) /\
  (exists a, pget "ven_id" p = Some a /\ addressed asked given a) /\
  (forall k, k <> "response" -> k <> "request_id" -> k <> "vtn_id" -> k <> "ven_id" -> pget k p = pget k given).

(** Two payloads with the same entries. *)
Definition same (c d : vdict) : Prop := forall k, vget k c = vget k d.
