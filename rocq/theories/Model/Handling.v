(** What the handlers of the VTN's services do with a payload as it was read,
    until one of them needs the id of the VEN: poll_service.py:113-126,
    event_service.py:36-41 and 86-91, report_service.py:73-92, 226-250, 263-284
    and 294-300, registration_service.py:70-93 and 129-137.

    Once payload['ven_id'] has been found, what follows is in the other models
    (Model/EventService.v, Model/Reports.v, Model/ReportService.v,
    Model/Registration.v); here the handler [Continues].  Simplifications: user
    code that is called returns; a member of the wrong kind (a list where a
    dict is needed) raises TypeError, whatever the operation. *)
From Coq Require Import ZArith String List Bool.
From Verif.Base Require Import Result Dict.
From Verif.Model Require Import DateTime Normalize VtnService.
Import ListNotations.
Local Open Scope string_scope.

(** User code is called: a handler that was added, or (for the values of a
    report) the callback for this report request and r_id. *)
Inductive act := Calls (handler : string) | Delivers (report_request_id r_id : val) (values : list (val * val)).
Inductive outcome := Returns | Raises (e : exn) | Continues.

(** The services: the keys of report_callbacks (report_service.py:68, 193), and which
    handlers there are besides those of the classes.  report_service.py defines
    on_created_report (274-292), but not on_registered_report. *)
Record services := mk_services {
  s_external : bool;                     (* polling_method == 'external' (poll_service.py:119) *)
  s_callbacks : list (val * val);
  s_created_report : bool;               (* on_created_report was replaced (server.py:352-360) *)
  s_registered_report : bool;            (* on_registered_report was set *)
  s_query : bool }.                      (* on_query_registration was set *)

(** payload['ven_id'] *)
Definition needs_ven (p : payload) : list act * outcome := match pget "ven_id" p with Some _ => ([], Continues) | None => ([], Raises KeyError) end.

(** v[k] *)
Definition item (k : string) (v : val) : result val :=
  match v with VDict d => match vget k d with Some x => Ok x | None => Raise KeyError end | _ => Raise TypeError end.
Definition items (v : val) : result (list val) := match v with VList l => Ok l | _ => Raise TypeError end.
Definition same (a b : val) : bool := if val_eq_dec a b then true else false.

(** utils.py:472-485 group_by with the key 'report_payload.r_id' *)
Definition member_or_none (k : string) (v : val) : result val :=
  match v with VDict d => Ok (match vget k d with Some x => x | None => VNone end) | _ => Raise AttributeError end.
Definition hashable (v : val) : bool := match v with VList _ | VDict _ => false | _ => true end.
Fixpoint add_to (k v : val) (groups : list (val * list val)) : list (val * list val) :=
  match groups with
  | [] => [(k, [v])]
  | (k', l) :: r => if same k k' then (k', (l ++ [v])%list) :: r else (k', l) :: add_to k v r
  end.
Definition grouped_by_id (intervals : list val) : result (list (val * list val)) :=
  foldM (fun groups i => bind (member_or_none "report_payload" i) (fun p => bind (member_or_none "r_id" p) (fun k =>
         if hashable k then Ok (add_to k i groups) else Raise TypeError))) intervals [].

(** report_service.py:242 *)
Definition values_of (intervals : list val) : result (list (val * val)) :=
  mapM (fun i => bind (item "dtstart" i) (fun t => bind (item "report_payload" i) (fun p => bind (item "value" p) (fun v => Ok (t, v))))) intervals.
(** Lines 238-246 *)
Fixpoint deliver (s : services) (id : val) (groups : list (val * list val)) : list act * result unit :=
  match groups with
  | [] => ([], Ok tt)
  | (r_id, l) :: r =>
    if existsb (fun k => same id (fst k) && same r_id (snd k)) (s_callbacks s) then
      match values_of l with
      | Raise e => ([], Raise e)
      | Ok vs => let '(a, o) := deliver s id r in (Delivers id r_id vs :: a, o)
      end
    else deliver s id r
  end.
(** Lines 232-246, for one report *)
Definition one_report (s : services) (report : val) : list act * result unit :=
  match item "report_request_id" report with
  | Raise e => ([], Raise e)
  | Ok id =>
    match s_callbacks s with
    | [] => ([Calls "on_update_report"], Ok tt)
    | _ :: _ =>
      match bind (item "intervals" report) (fun v => bind (items v) grouped_by_id) with
      | Raise e => ([], Raise e)
      | Ok groups => deliver s id groups
      end
    end
  end.
(** Line 231 *)
Fixpoint report_loop (s : services) (reports : list val) : list act * result unit :=
  match reports with
  | [] => ([], Ok tt)
  | r :: rs => match one_report s r with
               | (a, Raise e) => (a, Raise e)
               | (a, Ok _) => let '(b, o) := report_loop s rs in ((a ++ b)%list, o)
               end
  end.
Definition ended (r : list act * result unit) : list act * outcome := (fst r, match snd r with Ok _ => Returns | Raise e => Raises e end).

(** poll_service.py:114-126: lines 120 and 121 both need the id. *)
Definition poll (p : payload) : list act * outcome := needs_ven p.
(** event_service.py:37-41 *)
Definition request_event (p : payload) : list act * outcome := needs_ven p.
(** event_service.py:87-91 *)
Definition created_event (p : payload) : list act * outcome := needs_ven p.
(** report_service.py:74-92; without reports 87-89.  An empty list of reports
    gets to line 210, which needs the id as well. *)
Definition register_report (p : payload) : list act * outcome :=
  match pget_none "reports" p with
  | Val SNone => ([], Returns)
  | Other (VList _) => needs_ven p
  | _ => ([], Raises TypeError)
  end.
(** report_service.py:227-250 *)
Definition update_report (s : services) (p : payload) : list act * outcome :=
  match pget "reports" p with
  | None => ([], Raises KeyError)
  | Some (Other (VList l)) => ended (report_loop s l)
  | Some _ => ([], Raises TypeError)
  end.
(** report_service.py:264-278: the class has an on_created_report of its own. *)
Definition created_report (s : services) (p : payload) : list act * outcome :=
  if s_created_report s then ([Calls "on_created_report"], Returns) else needs_ven p.
(** report_service.py:295-300.  Line 297 only logs. *)
Definition registered_report (s : services) (p : payload) : list act * outcome :=
  if s_registered_report s then ([Calls "on_registered_report"], Returns)
  else match pget "ven_id" p with Some _ => ([], Returns) | None => ([], Raises KeyError) end.
(** registration_service.py:71-86 *)
Definition query_registration (s : services) (p : payload) : list act * outcome :=
  if s_query s then ([Calls "on_query_registration"], Returns) else match pget "request_id" p with Some _ => ([], Returns) | None => ([], Raises KeyError) end.
(** registration_service.py:89-116, up to the call *)
Definition create_party_registration (p : payload) : list act * outcome := ([Calls "on_create_party_registration"], Continues).
(** registration_service.py:130-137 *)
Definition cancel_party_registration (p : payload) : list act * outcome := ([Calls "on_cancel_party_registration"], Returns).

(** The handlers by message, as service/decorators.py collects them.  The VTN
    has no service for the other messages (server.py:89-92). *)
Definition handling (s : services) (t : string) (p : payload) : list act * outcome :=
  if String.eqb t "oadrPoll" then poll p
  else if String.eqb t "oadrRequestEvent" then request_event p
  else if String.eqb t "oadrCreatedEvent" then created_event p
  else if String.eqb t "oadrRegisterReport" then register_report p
  else if String.eqb t "oadrUpdateReport" then update_report s p
  else if String.eqb t "oadrCreatedReport" then created_report s p
  else if String.eqb t "oadrRegisteredReport" then registered_report s p
  else if String.eqb t "oadrQueryRegistration" then query_registration s p
  else if String.eqb t "oadrCreatePartyRegistration" then create_party_registration p
  else if String.eqb t "oadrCancelPartyRegistration" then cancel_party_registration p
  else ([], Returns).
