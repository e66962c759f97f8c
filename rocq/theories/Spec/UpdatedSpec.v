(** The reports of an oadrUpdateReport, as they stand in the message. *)
From Coq Require Import ZArith String List Bool.
From Verif.Base Require Import PyStr.
From Verif.Model Require Import DateTime Normalize Xml Schema SchemaTypes VtnService Handling.
From Verif.Spec Require Import Timestamp TextSpec MessageSpec RepliedSpec DeliveredSpec.
Import ListNotations.
Local Open Scope string_scope.

Definition reports_in (message : xml) : list xml := named (in_oadr "oadrReport") message.
Definition intervals_in (report : xml) : list xml := flat_map (named (in_ei "interval")) (named (in_strm "intervals") report).
(** A text at a place *)
Definition text_at (path : list string) (x : xml) (t : string) : Prop := exists c, part_of path x c /\ stands_in c t.

(** A measurement: a moment, and one payload with a number *)
Definition measurement (interval : xml) : Prop :=
  named (in_xcal "dtstart") interval <> [] /\ exists p, named (in_oadr "oadrReportPayload") interval = [p] /\ named (in_ei "payloadFloat") p <> [].
Definition measured (report : xml) : Prop := named (in_strm "intervals") report <> [] /\ forall i, In i (intervals_in report) -> measurement i.
Definition lacking (report : xml) : Prop := named (in_strm "intervals") report = [].

(** The number that a text writes, as a float *)
Definition worth (t : string) (v : val) : Prop :=
  (forall z, t = str_of_Z z -> v = VFloat t) /\ (~ like_integer t -> t <> "true" -> t <> "false" -> v = VFloat t).
(** The moment that a text writes; a text that writes none stays what it is. *)
Definition moment_of (t : string) (v : val) : Prop :=
  (exists d, v = VTime d /\ reads_as t (instant d)) \/ ((forall i, ~ reads_as t i) /\ v = match t with EmptyString => VNone | _ => VStr t end).
(** What is read of an interval: the r_id, the moment, the value *)
Definition tells (interval : xml) (r : val * (val * val)) : Prop :=
  (exists t, text_at [in_oadr "oadrReportPayload"; in_ei "rID"] interval t /\ understood t (fst r))
  /\ (exists t, text_at [in_xcal "dtstart"; in_xcal "date-time"] interval t /\ moment_of t (fst (snd r)))
  /\ exists t, text_at [in_oadr "oadrReportPayload"; in_ei "payloadFloat"; in_ei "value"] interval t /\ worth t (snd (snd r)).
(** A report is delivered: each of the callbacks that there are for its request
    and one of its r_ids gets all the values of this r_id, once. *)
Definition delivered_to (callbacks : list (val * val)) (report : xml) (acts : list act) : Prop :=
  exists id rs t, text_at [in_ei "reportRequestID"] report t /\ understood t id /\ Forall2 tells (intervals_in report) rs /\ NoDup acts
    /\ (forall a, In a acts <-> exists k, a = Delivers id k (values_for k rs) /\ In k (map fst rs) /\ In (id, k) callbacks).

(** An interval as it was read: its payload is for an r_id. *)
Definition called (interval k : val) : Prop :=
  exists i p, interval = VDict i /\ vget "report_payload" i = Some (VDict p) /\ vget "r_id" p = Some k /\ (forall l, k <> VList l) /\ (forall d, k <> VDict d).
(** It has no start, or no value. *)
Definition unmeasured (interval : val) : Prop :=
  exists i p, interval = VDict i /\ vget "report_payload" i = Some (VDict p) /\ (vget "dtstart" i = None \/ vget "value" p = None).
