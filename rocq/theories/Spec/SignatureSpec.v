(** What a signature is there for: who receives a signed message reads what the
    signer signed, and reads it once. *)
From Coq Require Import ZArith String List Bool Permutation.
From Verif.Base Require Import Result.
From Verif.Model Require Import Replay Normalize Xml XmlText SchemaTypes Signature.
From Verif.Spec Require Import ReadableSpec.
Import ListNotations.
Local Open Scope string_scope.

(** [genuine ts]: the owner of the certificate with the fingerprint [expected]
    signed the elements [ts].  Nobody else can make such a signature. *)
Definition unforgeable (fingerprint_of : string -> result string) (checks : string -> xml -> xml -> list xml -> bool) (expected : string) (genuine : list xml -> Prop) : Prop :=
  forall cert info value ts, fingerprint_of cert = Ok expected -> checks cert info value ts = true -> genuine ts.

(** [y] is [x] or somewhere in it. *)
Inductive within : xml -> xml -> Prop :=
| within_self x : within x x
| within_child n a t cs c x : In c cs -> within x c -> within x (Elem n a t cs).
(** [x] has an attribute Id, of whatever namespace, of this value. *)
Definition has_id (id : string) (x : xml) : Prop :=
  exists n attrs t cs k, x = Elem n attrs t cs /\ In (k, id) attrs /\ (k = "Id" \/ exists u, k = "{" ++ u ++ "}Id").
(** The one place in [x], below its root, where there is an element of this
    name. *)
Definition the_one (name : string) (x e : xml) : Prop := filter (fun y => xml_name y =? name) (below x) = [e].

(** What the signature of a document is of, according to its references. *)
Definition signed_parts (x : xml) (ts : list xml) : Prop :=
  exists info value, signature_of x = Some (info, value) /\ resolve_all x (references info) = Some ts.

(** A document whose signature refers to the object by the Id that every
    message of OpenADR gives it. *)
Definition refers_to_object (x object : xml) : Prop :=
  has_id "oadrSignedObject" object /\ exists info value, signature_of x = Some (info, value) /\ In "#oadrSignedObject" (references info).
(** A document with one timestamp and one nonce, both signed. *)
Definition stamped_once (x : xml) : Prop :=
  exists ts t n, signed_parts x ts /\ the_one (in_dsp "timestamp") x t /\ the_one (in_dsp "nonce") x n
    /\ (exists p, In p ts /\ within t p) /\ (exists p, In p ts /\ within n p).

(** An object as the templates print it: it has the Id of objects, and there is
    nothing about signatures in it. *)
Definition plain_object (object : xml) : Prop :=
  has_id "oadrSignedObject" object /\ carries "prop" object = false
  /\ forall y, In y (below object) -> carries "oadrSignedObject" y = false /\ carries "prop" y = false
       /\ xml_name y <> in_dsp "timestamp" /\ xml_name y <> in_dsp "nonce".

(** The clock does not run backwards, and iterating over a set visits every
    element once. *)
Fixpoint in_order (h : list moment) : Prop :=
  match h with
  | [] => True
  | m :: r => (forall i, (m_now m <= m_clk m i)%Z) /\ (forall m', In m' r -> forall i, (m_clk m i <= m_now m')%Z) /\ in_order r
  end.
Definition fair (h : list moment) : Prop := forall m, In m h -> forall l, Permutation (m_shuffle m l) l.

(** The first element of this name in the document. *)
Definition first_named (name : string) (x e : xml) : Prop :=
  xml_name e = name /\ exists before after, below x = (before ++ e :: after)%list /\ forall y, In y before -> xml_name y <> name.
(** The certificate with this text, in PEM form: a line before it and a line
    after it. *)
Definition in_pem_form (text pem : string) : Prop :=
  exists body, pem = "-----BEGIN CERTIFICATE-----" ++ lf ++ body ++ "-----END CERTIFICATE-----" ++ lf
    /\ ((exists r, text = r ++ lf /\ body = text) \/ ((forall r, text <> r ++ lf) /\ body = text ++ lf)).
