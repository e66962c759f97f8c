(** Vocabulary for C89: two values that differ in named places only. *)
From Coq Require Import ZArith String List.
From Verif.Base Require Import Dict.
From Verif.Model Require Import Normalize.
Import ListNotations.
Local Open Scope string_scope.

(** A place in a nested value: a member of a dict, or each element of a list. *)
Inductive step := Key (k : string) | Each.
Definition place := list step.
Definition places := place -> Prop.
Definition below (s : step) (P : places) : places := fun p => P (s :: p).

(** [agree C A v w]: [w] is [v], but at the places [C] there may be something
    else, and at the places [A] there may be something where nothing was. *)
Inductive agree : places -> places -> val -> val -> Prop :=
| agree_same C A v : agree C A v v
| agree_changed (C A : places) v w : C [] -> agree C A v w
| agree_dict (C A : places) (d e : vdict) :
    (forall k, vget k d <> None -> vget k e <> None) ->
    (forall k, vget k d = None -> vget k e <> None -> A [Key k]) ->
    (forall k v w, vget k d = Some v -> vget k e = Some w -> agree (below (Key k) C) (below (Key k) A) v w) ->
    agree C A (VDict d) (VDict e)
| agree_list (C A : places) l m :
    length l = length m ->
    (forall i v w, nth_error l i = Some v -> nth_error m i = Some w -> agree (below Each C) (below Each A) v w) ->
    agree C A (VList l) (VList m).

Definition of_event (r : place) : place := Key "events" :: Each :: r.
Definition of_signal (r : place) : place := of_event (Key "event_signals" :: Each :: r).
Definition of_measurement (r : place) : place := Key "reports" :: Each :: Key "report_descriptions" :: Each :: Key "measurement" :: r.

(** Where oadrDistributeEvent may be corrected, and where it may be completed. *)
Definition corrected_in_events : places := fun p => In p
  [of_event [Key "active_period"; Key "duration"]; of_signal [Key "current_value"]; of_signal [Key "measurement"; Key "ns"];
   of_event [Key "response_required"]; of_event [Key "event_descriptor"; Key "created_date_time"]].
Definition completed_in_events : places := fun p => In p
  [of_signal [Key "measurement"; Key "ns"]; of_event [Key "response_required"]; of_event [Key "event_descriptor"; Key "created_date_time"]; of_event [Key "targets"]].
(** The same for oadrRegisterReport. *)
Definition corrected_in_reports : places := fun p => In p
  [[Key "reports"; Each; Key "report_name"]; of_measurement [Key "name"]; of_measurement [Key "description"]; of_measurement [Key "ns"]].
Definition completed_in_reports : places := fun p => p = of_measurement [Key "ns"].
Definition nowhere : places := fun _ => False.
