(** Messages that can be read: what a message that the schema allows needs to
    be, on top of that, for OpenLEADR. *)
From Coq Require Import ZArith String Ascii List Bool.
From Verif.Base Require Import Result.
From Verif.Model Require Import Duration Normalize Xml Schema SchemaTypes.
From Verif.Spec Require Import Timestamp TextSpec MessageSpec.
Import ListNotations.
Local Open Scope string_scope.

(** A text as it stands between the tags: the layout is dropped.  A text of
    digits and dots must be a number ("1.2.3" is not one; integers of any length are), and a text in the
    notation of a time must be a time ("2020-01-01T24:00:00Z" is not one). *)
Definition legible (num : numbers) (text : string) : Prop :=
  forall t, flattening text t ->
    (like_number t -> ~ like_integer t -> float_ok num t = true)
    /\ (forall y mo d h mi s us, timestamp_text t y mo d h mi s us -> possible y mo d h mi s us).

(** The elements that hold a duration. *)
Definition duration_elements : list string := ["duration"; "startafter"; "oadrMinPeriod"; "oadrMaxPeriod"].
(** A duration that fits in a timedelta. *)
Definition bounded (text : string) : Prop := forall t, flattening text t -> parse_duration (DText t) <> Raise OverflowError.
Definition integral (text : string) : Prop := forall t, flattening text t -> like_integer t.

Definition xml_text (x : xml) : string := match x with Elem _ _ t _ => t end.
Definition xml_children (x : xml) : list xml := match x with Elem _ _ _ cs => cs end.
Fixpoint readable (num : numbers) (x : xml) : Prop :=
  match x with
  | Elem name _ text children =>
    legible num text
    /\ (In name duration_elements -> children = [] -> bounded text)
    /\ (name = "uid" -> Forall (fun c => integral (xml_text c)) children)
    /\ (fix all (cs : list xml) : Prop := match cs with [] => True | c :: cs => readable num c /\ all cs end) children
  end.

(** Every text that xs:float allows is one that Python's float() accepts. *)
Definition reads_floats (num : numbers) : Prop := forall t, matches float_pattern t = true -> float_ok num t = true.

(** The envelope oadrPayload with its object, perhaps signed. *)
Definition envelope (x object : xml) : Prop :=
  exists attrs text signature,
    x = Elem (in_oadr "oadrPayload") attrs text (signature ++ [object])
    /\ blank_text text = true
    /\ Forall (fun s => xml_name s = in_ds "Signature") signature
    /\ xml_name object = in_oadr "oadrSignedObject".
(** An object that is valid without anything that other schemas define: there
    are no xsi attributes, Atom feeds and such in it. *)
Definition alone (uri : string -> bool) (object : xml) : Prop := valid uri (fun _ => false) object oadr_oadrSignedObject_element = true.

(** The messages of OpenADR. *)
Definition kinds : list string :=
  ["oadrDistributeEvent"; "oadrCreatedEvent"; "oadrRequestEvent"; "oadrResponse"; "oadrCancelOpt"; "oadrCanceledOpt"; "oadrCreateOpt"; "oadrCreatedOpt";
   "oadrCancelReport"; "oadrCanceledReport"; "oadrCreateReport"; "oadrCreatedReport"; "oadrRegisterReport"; "oadrRegisteredReport"; "oadrUpdateReport"; "oadrUpdatedReport";
   "oadrCancelPartyRegistration"; "oadrCanceledPartyRegistration"; "oadrCreatePartyRegistration"; "oadrCreatedPartyRegistration"; "oadrRequestReregistration";
   "oadrQueryRegistration"; "oadrPoll"].
