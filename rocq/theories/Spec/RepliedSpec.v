(** What a VEN says about events in an oadrCreatedEvent. *)
From Coq Require Import ZArith String List Bool.
From Verif.Base Require Import PyStr.
From Verif.Model Require Import Normalize Xml Schema SchemaTypes.
From Verif.Spec Require Import TextSpec MessageSpec PolledSpec.
Import ListNotations.
Local Open Scope string_scope.

Definition parts (x : xml) : list xml := match x with Elem _ _ _ cs => cs end.
Definition named (n : string) (x : xml) : list xml := filter (fun c => String.eqb (xml_name c) n) (parts x).
(** The responses of a message, in their order *)
Definition responses_in (message : xml) : list xml :=
  flat_map (named (in_ei "eventResponse")) (flat_map (named (in_ei "eventResponses")) (named (in_pyld "eiCreatedEvent") message)).
(** A text stands in an element, once the layout is taken out. *)
Definition stands_in (x : xml) (t : string) : Prop := flattening (text_in x) t.
(** The id and the modification number of the event that a response is about, and what was chosen *)
Definition part_of (path : list string) (x c : xml) : Prop :=
  In c (fold_left (fun xs n => flat_map (named n) xs) path [x]).
Definition event_text (r : xml) (t : string) : Prop := exists c, part_of [in_ei "qualifiedEventID"; in_ei "eventID"] r c /\ stands_in c t.
Definition modification_text (r : xml) (t : string) : Prop := exists c, part_of [in_ei "qualifiedEventID"; in_ei "modificationNumber"] r c /\ stands_in c t.
Definition choice_text (r : xml) (t : string) : Prop := exists c, part_of [in_ei "optType"] r c /\ stands_in c t.

(** A text that is taken for itself: not for a number, a truth value or nothing *)
Definition wordy (t : string) : Prop := t <> "" /\ t <> "true" /\ t <> "false" /\ ~ like_number t.
(** What becomes of a text: itself, if it is wordy, and nothing else that is a
    text; the number that it writes. *)
Definition understood (t : string) (v : val) : Prop :=
  (wordy t -> v = VStr t) /\ (~ wordy t -> forall s, v <> VStr s) /\ (forall z, t = str_of_Z z -> v = VInt z).
