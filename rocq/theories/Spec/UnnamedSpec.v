(** Messages that do not say which VEN they are from. *)
From Coq Require Import ZArith String List Bool.
From Verif.Base Require Import Result.
From Verif.Model Require Import Normalize Xml XmlText Schema SchemaTypes VtnService Handling.
From Verif.Spec Require Import ReadableSpec.
Import ListNotations.
Local Open Scope string_scope.

(** The message in the object has no element venID. *)
Definition unnamed (object : xml) : Prop :=
  exists n attrs text name attrs' text' cs, object = Elem n attrs text [Elem name attrs' text' cs] /\ forall c, In c cs -> xml_name c <> in_ei "venID".
(** In these messages the schema demands one (in eiRequestEvent and
    eiCreatedEvent it is further down). *)
Definition always_named : list string := ["oadrPoll"; "oadrRequestEvent"; "oadrCreatedEvent"; "oadrCreateOpt"; "oadrCancelOpt"; "oadrRequestReregistration"].

(** Something is done with the message: user code is called, or the handler
    goes on to where it uses and changes what the VTN knows. *)
Definition effective (s : services) (t : string) (p : payload) : Prop := fst (handling s t p) <> [] \/ snd (handling s t p) = Continues.
