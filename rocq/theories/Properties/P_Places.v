(** C89: preflight leaves payloads as they are, but for the places that it corrects. *)
From Coq Require Import ZArith String List Bool Lia.
From Verif.Base Require Import Result Dict.
From Verif.Model Require Import DateTime Normalize PreflightDict.
From Verif.Spec Require Import PlacesSpec.
From Verif.Proofs Require Import PlacesProofs.
Import ListNotations.
Local Open Scope string_scope.
Local Open Scope Z_scope.

(** Whatever the events are: dicts with any members, of any types. *)
Theorem C89_events : forall now p q, preflight_message now "oadrDistributeEvent" p = Ok q -> agree corrected_in_events completed_in_events (VDict p) (VDict q).
Proof. exact events_places. Qed.
(** Whatever the reports that are offered are. *)
Theorem C89_reports : forall now p q, preflight_message now "oadrRegisterReport" p = Ok q -> agree corrected_in_reports completed_in_reports (VDict p) (VDict q).
Proof. exact reports_places. Qed.
(** Nothing is taken away: what is found in the payload is found in the message. *)
Inductive found : place -> val -> Prop :=
| found_here v : found [] v
| found_key k p d v : vget k d = Some v -> found p v -> found (Key k :: p) (VDict d)
| found_each p l v : In v l -> found p v -> found (Each :: p) (VList l).
Lemma agree_found C A v w p : agree C A v w -> (forall a b, p = (a ++ b)%list -> b <> [] -> ~ C a) -> found p v -> found p w.
Proof.
  intros H. revert p. induction H as [C A v|C A v w H|C A d e K N S IH|C A l m L S IH]; intros p NC F; [assumption|..].
  - destruct p as [|s p]; [constructor|]. destruct (NC [] (s :: p) eq_refl); [discriminate|assumption].
  - inversion F as [|k p' d' v G F'|]; subst; [constructor|]. destruct (vget k e) as [w|] eqn:E; [|exfalso; apply (K k); congruence].
    apply (found_key k p' e w E). apply (IH k v w G E); [|assumption]. intros a b -> B. apply (NC (Key k :: a)%list b eq_refl B).
  - inversion F as [| |p' l' v I F']; subst; [constructor|]. apply In_nth_error in I as (i & I). destruct (nth_error m i) as [w|] eqn:E.
    + apply (found_each p' m w); [eapply nth_error_In; eassumption|]. apply (IH i v w I E); [|assumption]. intros a b -> B. apply (NC (Each :: a)%list b eq_refl B).
    + apply nth_error_None in E. exfalso. assert (i < length l)%nat by (apply nth_error_Some; congruence). lia.
Qed.
Theorem C89_nothing_lost : forall now p q r k, preflight_message now "oadrDistributeEvent" p = Ok q ->
  found (of_event (Key k :: r)) (VDict p) -> ~ In k ["active_period"; "event_signals"; "event_descriptor"; "response_required"] -> found (of_event (Key k :: r)) (VDict q).
Proof.
  intros now p q r k H F N. apply events_places in H. revert F. apply (agree_found _ _ _ _ _ H). intros a b E B I. cbn in N. unfold of_event in E.
  cbv [corrected_in_events of_signal of_event In] in I. destruct I as [<-|[<-|[<-|[<-|[<-|[]]]]]]; cbn in E; injection E as E _; subst; tauto.
Qed.

(** An event with a strange signal, and members that nobody asked for. *)
Definition odd_signal : val :=
  VDict [("signal_name", VStr "SIMPLE"); ("intervals", VList [VDict [("duration", VStr "PT1H"); ("signal_payload", VFloat "2.0"); ("colour", VStr "red")]]); ("current_value", VNone);
         ("measurement", VDict [("name", VStr "voltage"); ("unit", VInt 7)]); ("signal_id", VList [])].
Definition odd_events : vdict :=
  [("events", VList [VDict [("active_period", VDict [("duration", VStr "PT1H"); ("dtstart", VInt 3)]); ("event_signals", VList [odd_signal]);
                            ("event_descriptor", VDict [("event_id", VInt 5); ("event_status", VStr "active")]); ("targets_by_type", VDict [("ven_id", VStr "ven1")]); ("priority", VBool true)]]);
   ("vtn_id", VInt 9)].
Definition some_time : datetime := mkdt 2021 1 2 3 4 5 6 0.
Example C89_example : exists q, preflight_message (fun _ => some_time) "oadrDistributeEvent" odd_events = Ok q /\ VDict q <> VDict odd_events.
Proof. eexists. split; [vm_compute; reflexivity|]. discriminate. Qed.
Example C89_example_reports : exists q, preflight_message (fun _ => some_time) "oadrRegisterReport"
  [("reports", VList [VDict [("report_name", VStr "TELEMETRY_USAGE"); ("report_descriptions", VList [VDict [("measurement", VDict [("name", VStr "light"); ("description", VInt 1); ("unit", VStr "lx")])]; VDict []])]])] = Ok q.
Proof. eexists. vm_compute. reflexivity. Qed.
(** The relation is not trivial. *)
Lemma agree_down C A d e k v w : agree C A (VDict d) (VDict e) -> ~ C [] -> vget k d = Some v -> vget k e = Some w -> agree (below (Key k) C) (below (Key k) A) v w.
Proof. intros H N V W. inversion H; subst; [assert (v = w) as -> by congruence; constructor|contradiction|auto]. Qed.
Example C89_example_not : ~ agree corrected_in_events completed_in_events (VDict odd_events) (VDict (vset "vtn_id" (VInt 8) odd_events)).
Proof.
  intros H. apply (agree_down _ _ _ _ "vtn_id" (VInt 9) (VInt 8)) in H; [|cbv; intuition discriminate|reflexivity..]. inversion H as [|C A v w X| |]. cbv in X. intuition discriminate.
Qed.
Print Assumptions C89_events.
Print Assumptions C89_reports.
Print Assumptions C89_nothing_lost.
