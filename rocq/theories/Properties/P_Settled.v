(** C92: what preflight has corrected is right. *)
From Coq Require Import ZArith String List Bool Lia.
From Verif.Base Require Import Result Dict.
From Verif.Model Require Import DateTime Duration Normalize PreflightDict.
From Verif.Spec Require Import PlacesSpec SettledSpec.
From Verif.Proofs Require Import SettledProofs.
From Verif.Properties Require Import P_Places.
Import ListNotations.
Local Open Scope string_scope.
Local Open Scope Z_scope.

(** What the checks let through, they let through again, unchanged. *)
Definition C92_full : Prop := forall now now' kind p q, preflight_message now kind p = Ok q -> preflight_message now' kind q = Ok q.

(** Offers of reports, and messages that are not checked. *)
Theorem C92_other_messages_partial : forall now now' kind p q, kind <> "oadrDistributeEvent" -> preflight_message now kind p = Ok q -> preflight_message now' kind q = Ok q.
Proof.
  intros now now' kind p q N H. destruct (String.eqb_spec kind "oadrRegisterReport") as [->|R]; [exact (reports_again now now' p q H)|].
  unfold preflight_message in *. destruct (String.eqb_spec kind "oadrDistributeEvent"); [contradiction|]. destruct (String.eqb_spec kind "oadrRegisterReport"); [contradiction|]. congruence.
Qed.
(** Events: whose targets by type, when there are no targets, are lists of texts. *)
Theorem C92_events_partial : forall now now' p q,
  (forall es d b, vget "events" p = Some (VList es) -> In (VDict d) es -> vget "targets" d = None -> vget "targets_by_type" d = Some (VDict b) -> tidy_groups b) ->
  preflight_message now "oadrDistributeEvent" p = Ok q -> preflight_message now' "oadrDistributeEvent" q = Ok q.
Proof. intros now now' p q T H. apply (events_again now now' p q); [|exact H]. intros es d G I b. exact (T es d b G I). Qed.
(** What stands in each event then. *)
Theorem C92_events_settled : forall now p q es, vget "events" p = Some (VList es) -> preflight_message now "oadrDistributeEvent" p = Ok q ->
  exists fs, vget "events" q = Some (VList fs) /\ length fs = length es
    /\ forall i e, nth_error es i = Some e -> exists d f, e = VDict d /\ nth_error fs i = Some (VDict f) /\ settled_event (now i) d f.
Proof. exact events_settled. Qed.

(** An event for one VEN, given as in the documentation of targets_by_type but
    with a text instead of a list: it can be sent once. *)
Definition event_for (b : val) : vdict :=
  [("events", VList [VDict [("active_period", VDict [("duration", VDur 5)]);
                            ("event_signals", VList [VDict [("signal_name", VStr "SIMPLE"); ("current_value", VInt 2);
                                                             ("intervals", VList [VDict [("duration", VStr "PT30M"); ("signal_payload", VInt 1)]; VDict [("duration", VDur 1800000000); ("signal_payload", VInt 0)]])]]);
                            ("event_descriptor", VDict [("event_id", VStr "e1"); ("event_status", VStr "far"); ("created_date_time", VNone)]); ("targets_by_type", b)]])].
Theorem C92_settled_refuted : ~ C92_full.
Proof.
  intros F. destruct (preflight_message (fun _ => some_time) "oadrDistributeEvent" (event_for (VDict [("ven_id", VStr "ven1")]))) as [q|e] eqn:E; [|vm_compute in E; discriminate E].
  pose proof (F _ (fun _ => some_time) _ _ _ E) as A. vm_compute in E. injection E as <-. vm_compute in A. discriminate A.
Qed.

Definition two_vens : val := VDict [("ven_id", VList [VStr "ven1"; VStr "ven2"]); ("group_id", VList [VStr "g"])].
Lemma two_vens_tidy : forall es d b, vget "events" (event_for two_vens) = Some (VList es) -> In (VDict d) es -> vget "targets" d = None -> vget "targets_by_type" d = Some (VDict b) -> tidy_groups b.
Proof.
  intros es d b [= <-] [[= <-]|[]] _ [= <-]. split; [|repeat constructor; cbn; [exists "ven1", ["ven2"]|exists "g", []]; reflexivity].
  repeat constructor; cbn; intuition discriminate.
Qed.
(** The hypothesis is met by an event of which four members are corrected or completed. *)
Example C92_example : exists q f, preflight_message (fun _ => some_time) "oadrDistributeEvent" (event_for two_vens) = Ok q
  /\ preflight_message (fun _ => mkdt 2030 1 1 0 0 0 0 0) "oadrDistributeEvent" q = Ok q
  /\ vget "events" q = Some (VList [VDict f])
  /\ vget "response_required" f = Some (VStr "always")
  /\ vget "active_period" f = Some (VDict [("duration", VDur 3600000000)])
  /\ vget "targets" f = Some (VList [VDict [("ven_id", VStr "ven1")]; VDict [("ven_id", VStr "ven2")]; VDict [("group_id", VStr "g")]])
  /\ vget "event_descriptor" f = Some (VDict [("event_id", VStr "e1"); ("event_status", VStr "far"); ("created_date_time", VTime some_time)]).
Proof.
  destruct (preflight_message (fun _ => some_time) "oadrDistributeEvent" (event_for two_vens)) as [q|e] eqn:E; [|vm_compute in E; discriminate E].
  exists q. pose proof (C92_events_partial _ (fun _ => mkdt 2030 1 1 0 0 0 0 0) _ _ two_vens_tidy E) as A. vm_compute in E. injection E as <-.
  eexists. split; [reflexivity|]. split; [exact A|]. repeat split.
Qed.
(** The first signal of the event lasts an hour. *)
Example C92_example_lasts : signal_lasts (VDict [("intervals", VList [VDict [("duration", VStr "PT30M")]; VDict [("duration", VDur 1800000000)]])]) 3600000000.
Proof.
  eexists. eexists. split; [reflexivity|]. split; [reflexivity|].
  change 3600000000 with (1800000000 + (1800000000 + 0)). eapply more_intervals; [reflexivity|vm_compute; reflexivity|]. eapply more_intervals; [reflexivity|reflexivity|constructor].
Qed.
(** Targets given in both forms must be the same. *)
Definition both (ts : list val) : vdict :=
  match event_for two_vens with [("events", VList [VDict e])] => [("events", VList [VDict (e ++ [("targets", VList ts)])])] | p => p end.
Example C92_example_both : map (fun ts => match preflight_message (fun _ => some_time) "oadrDistributeEvent" (both ts) with Ok _ => true | Raise _ => false end)
  [[VDict [("ven_id", VStr "ven1"); ("group_id", VStr "g")]; VDict [("group_id", VNone); ("ven_id", VStr "ven2")]]; [VDict [("ven_id", VStr "ven1"); ("group_id", VStr "g")]]; [VDict [("ven_id", VStr "ven2"); ("group_id", VStr "g")]; VDict [("ven_id", VStr "ven1")]]] = [true; false; false].
Proof. vm_compute. reflexivity. Qed.
Example C92_example_reports : exists q, preflight_message (fun _ => some_time) "oadrRegisterReport"
  [("reports", VList [VDict [("report_name", VStr "TELEMETRY_USAGE"); ("report_descriptions", VList [VDict [("measurement", VDict [("name", VStr "Voltage"); ("description", VStr "V"); ("unit", VStr "V")])]; VDict []])]])] = Ok q
  /\ preflight_message (fun _ => some_time) "oadrRegisterReport" q = Ok q.
Proof. eexists. split; vm_compute; reflexivity. Qed.

Print Assumptions C92_other_messages_partial.
Print Assumptions C92_events_partial.
Print Assumptions C92_events_settled.
Print Assumptions C92_settled_refuted.
