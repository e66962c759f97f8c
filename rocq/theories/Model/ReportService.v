(** The VTN's report service over its whole life: the three messages of
    Model/Reports.v in any order, from any VEN.
    Source: openleadr/service/report_service.py:57-72 (the state) and 74-292.
    Simplifications: a message is handled without interruption (the awaits of
    user code in register_report and update_report do not interleave with
    other messages); on_created_report is the one of the service. *)
From Coq Require Import ZArith String List Bool.
From Verif.Base Require Import Result Dict PyStr.
From Verif.Model Require Import Reports.
Import ListNotations.
Local Open Scope string_scope.
Local Open Scope list_scope.

(** self.registered_reports, self.requested_reports, self.report_callbacks
    (the [service]) and self.created_reports. *)
Record state := mk_state { srv : service; created : dict scalar (list string) }.

(** report_service.py:60-67 __init__ *)
Definition initial : state := mk_state (mk_service [] [] []) [].

Inductive message :=
| Register (fresh : nat -> string) (handler : on_register) (ven_id : scalar) (reports : option (list offered))
| Created (ven_id : scalar) (pending : list string)
| Update (user : delivery -> result unit) (ven_id : scalar) (reports : list received).

Inductive outcome :=
| Registered (r : result (list request))
| Missing (r : result (list request))
| Delivered (ds : list delivery) (r : result unit).

(** The handler of each message: lines 74-211, 253-292, 227-250.  The ven_id
    of an oadrUpdateReport is not looked at. *)
Definition handle (m : message) (s : state) : state * outcome :=
  match m with
  | Register fresh h ven reports =>
    let '(srv', r) := register_report fresh h ven reports (srv s) in (mk_state srv' (created s), Registered r)
  | Created ven pending =>
    let '(c, r) := created_report ven pending (created s) (requested (srv s)) in (mk_state (srv s) c, Missing r)
  | Update user _ reports =>
    let '(ds, r) := update_report user (report_callbacks (srv s)) reports in (s, Delivered ds r)
  end.

(** All messages so far. *)
Definition after (hist : list message) : state := fold_left (fun s m => fst (handle m s)) hist initial.
