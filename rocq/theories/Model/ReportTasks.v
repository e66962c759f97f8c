(** The VTN's report service with messages that arrive while others are being
    worked on: service/report_service.py:74-211 and 227-292 with the awaits in
    between.
    A task is a message whose handler waits for user code: register_report for
    on_register_report (lines 101-125, once per telemetry report), update_report
    for a callback or on_update_report (lines 233-246, once per delivery).
    Between two awaits nothing else runs.  created_report does not wait (its
    default handler, lines 268-292, has no await).
    What user code answers is an argument of the message, as in Model/Reports.v;
    when it answers is the label [Resume].  A handler that is no coroutine is
    resumed at once.  Simplification: an exception in one of the calls of a
    compact handler (a description without sampling rate, say) comes when the
    report is resumed. *)
From Coq Require Import ZArith String List Bool.
From Verif.Base Require Import Result Dict PyStr.
From Verif.Model Require Import Reports ReportService.
Import ListNotations.
Local Open Scope string_scope.
Local Open Scope list_scope.

Inductive task :=
| Registering (fresh : nat -> string) (h : on_register) (ven : scalar) (reports : list offered)
    (i : nat) (rest : list offered)              (* the handler was asked about the head of [rest], the i-th report *)
    (results : list (option (list entry)))       (* report_requests *)
| Updating (user : delivery -> result unit) (ven : scalar) (reports : list received)
    (d : delivery)                               (* user code is at work on this *)
    (request : string) (groups : list (scalar * list rinterval)) (rest : list received).

Record system := mk_system { st : state; tasks : dict nat task }.
Definition start : system := mk_system initial [].

Inductive label :=
| LRegister (t : nat) (fresh : nat -> string) (h : on_register) (ven : scalar) (reports : option (list offered))
| LUpdate (t : nat) (user : delivery -> result unit) (ven : scalar) (reports : list received)
| LCreated (ven : scalar) (pending : list string)
| LResume (t : nat).

Inductive effect :=
| Answered (t : nat) (m : message) (r : result (list request))   (* of oadrRegisterReport *)
| Given (t : nat) (d : delivery)
| Updated (t : nat) (m : message) (r : result unit)
| Checked (m : message) (r : result (list request)).

(** ** register_report *)

(** Lines 92-97 *)
Definition enroll (ven : scalar) (report : offered) (s : state) : state :=
  let sv := srv s in
  let l := match get scalar_eqb ven (registered sv) with Some l => l | None => [] end in
  mk_state (mk_service (set scalar_eqb ven (l ++ [renamed report]) (registered sv)) (requested sv) (report_callbacks sv)) (created s).
(** Lines 99, 112 *)
Definition is_telemetry (report : offered) : bool :=
  (o_name report =? "METADATA_TELEMETRY_STATUS") || (o_name report =? "METADATA_TELEMETRY_USAGE").
(** Lines 91-136, up to the next report about which the handler is asked. *)
Fixpoint advance (ven : scalar) (i : nat) (rest : list offered) (results : list (option (list entry))) (s : state)
  : state * (nat * list offered * list (option (list entry))) :=
  match rest with
  | [] => (s, (i, [], results))
  | report :: r =>
    let s := enroll ven report s in
    if is_telemetry report then (s, (i, report :: r, results)) else advance ven (S i) r (results ++ [None]) s
  end.
(** Lines 159-211 *)
Definition conclude (fresh : nat -> string) (ven : scalar) (reports : list offered) (results : list (option (list entry))) (s : state) : state * result (list request) :=
  let sv := srv s in
  match form fresh 0 reports (validate_report_request_tuples results) (report_callbacks sv) with
  | (cbs, Raise e) => (mk_state (mk_service (registered sv) (requested sv) cbs) (created s), Raise e)
  | (cbs, Ok qs) => (mk_state (mk_service (registered sv) (set scalar_eqb ven qs (requested sv)) cbs) (created s), Ok qs)
  end.
Definition proceed (t : nat) (fresh : nat -> string) (h : on_register) (ven : scalar) (reports : list offered)
                   (i : nat) (rest : list offered) (results : list (option (list entry))) (y : system) : system * list effect :=
  match advance ven i rest results (st y) with
  | (s, (_, [], results)) =>
    let '(s, r) := conclude fresh ven reports results s in
    (mk_system s (del Nat.eqb t (tasks y)), [Answered t (Register fresh h ven (Some reports)) r])
  | (s, (i, rest, results)) => (mk_system s (set Nat.eqb t (Registering fresh h ven reports i rest results) (tasks y)), [])
  end.

(** ** update_report *)

(** Lines 237-244: the next group for which there is a callback. *)
Fixpoint seek (cbs : callbacks) (request : string) (groups : list (scalar * list rinterval)) : option (delivery * list (scalar * list rinterval)) :=
  match groups with
  | [] => None
  | (r_id, values) :: g =>
    match get key_eqb (request, r_id) cbs with
    | Some c => Some (Deliver c (map (fun ri => (ri_dtstart ri, ri_value ri)) values), g)
    | None => seek cbs request g
    end
  end.
(** Lines 231-246, up to the next call of user code. *)
Fixpoint next (cbs : callbacks) (request : string) (groups : list (scalar * list rinterval)) (rest : list received)
  : option (delivery * string * list (scalar * list rinterval) * list received) :=
  match seek cbs request groups with
  | Some (d, g) => Some (d, request, g, rest)
  | None =>
    match rest with
    | [] => None
    | report :: r =>
      match cbs with
      | [] => Some (Unclaimed report, rc_request report, [], r)
      | _ => next cbs (rc_request report) (group_intervals (rc_intervals report)) r
      end
    end
  end.
Definition hand_out (t : nat) (user : delivery -> result unit) (ven : scalar) (reports : list received)
                    (request : string) (groups : list (scalar * list rinterval)) (rest : list received) (y : system) : system * list effect :=
  match next (report_callbacks (srv (st y))) request groups rest with
  | Some (d, request, groups, rest) => (mk_system (st y) (set Nat.eqb t (Updating user ven reports d request groups rest) (tasks y)), [Given t d])
  | None => (mk_system (st y) (del Nat.eqb t (tasks y)), [Updated t (Update user ven reports) (Ok tt)])
  end.

(** ** All messages *)
Definition step (y : system) (l : label) : option (system * list effect) :=
  match l with
  | LRegister t fresh h ven reports =>
    match get Nat.eqb t (tasks y) with
    | Some _ => None
    | None =>
      Some (match reports with
            | None => (y, [Answered t (Register fresh h ven None) (Ok [])])
            | Some reports => proceed t fresh h ven reports 0 reports [] y
            end)
    end
  | LUpdate t user ven reports =>
    match get Nat.eqb t (tasks y) with
    | Some _ => None
    | None => Some (hand_out t user ven reports "" [] reports y)
    end
  | LCreated ven pending =>
    let '(c, r) := created_report ven pending (created (st y)) (requested (srv (st y))) in
    Some (mk_system (mk_state (srv (st y)) c) (tasks y), [Checked (Created ven pending) r])
  | LResume t =>
    match get Nat.eqb t (tasks y) with
    | None => None
    | Some (Registering fresh h ven reports i rest results) =>
      match rest with
      | [] => None
      | report :: r =>
        Some (match ask h ven i report with
              | Raise e => (mk_system (st y) (del Nat.eqb t (tasks y)), [Answered t (Register fresh h ven (Some reports)) (Raise e)])
              | Ok x => proceed t fresh h ven reports (S i) r (results ++ [x]) y
              end)
      end
    | Some (Updating user ven reports d request groups rest) =>
      Some (match user d with
            | Raise e => (mk_system (st y) (del Nat.eqb t (tasks y)), [Updated t (Update user ven reports) (Raise e)])
            | Ok _ => hand_out t user ven reports request groups rest y
            end)
    end
  end.
