(** The handlers of the VTN and what calls them: server.py:33-46 and 340-360
    (add_handler), server.py:206-212 (add_event after on_poll), and the places
    in the services where a handler is called.

    Simplification: a handler is a number; for reports, how often it is called
    is an argument of the message (Model/Reports.v has the details). *)
From Coq Require Import ZArith String List Bool.
From Verif.Base Require Import Result Dict.
From Verif.Model Require Import VtnService.
Import ListNotations.
Local Open Scope string_scope.

(** server.py:33-46 _MAP *)
Definition handler_map : dict string string :=
  [("on_created_event", "event_service"); ("on_request_event", "event_service");
   ("on_register_report", "report_service"); ("on_create_report", "report_service"); ("on_created_report", "report_service");
   ("on_request_report", "report_service"); ("on_update_report", "report_service");
   ("on_poll", "poll_service");
   ("on_query_registration", "registration_service"); ("on_create_party_registration", "registration_service"); ("on_cancel_party_registration", "registration_service")].

(** The attributes that add_handler sets, by service and name, and the polling
    methods of the two services (external or not). *)
Record server := mk_server { attributes : dict (string * string) nat; poll_external : bool; event_external : bool }.
(** event_service.py:27-29, poll_service.py:105-107 *)
Definition new_server : server := mk_server [] false false.
Definition attr_eqb (a b : string * string) : bool := String.eqb (fst a) (fst b) && String.eqb (snd a) (snd b).

(** server.py:352-360 *)
Definition add_handler (name : string) (func : nat) (s : server) : result server :=
  match get String.eqb name handler_map with
  | Some service =>
    let external := String.eqb name "on_poll" in
    Ok (mk_server (set attr_eqb (service, name) func (attributes s)) (external || poll_external s) (external || event_external s))
  | None => Raise NameError
  end.

(** The messages, as far as it matters which handlers they call. *)
Inductive incoming :=
| Poll (updated : bool)                                (* events_updated of the VEN *)
| RequestEvent
| CreatedEvent (responses : nat)
| RegisterReport (questions : nat)                     (* how often Model/Reports.v asks *)
| UpdateReport (reports : nat) (any_callback : bool)   (* self.report_callbacks is not empty *)
| CreatedReport
| QueryRegistration
| CreatePartyRegistration
| CancelPartyRegistration.

(** self.name(...): the one that was added, or the one of the class (None). *)
Definition call (s : server) (service name : string) : string * option nat := (name, get attr_eqb (service, name) (attributes s)).
Definition request_event (s : server) : list (string * option nat) :=
  if event_external s then [call s "event_service" "on_request_event"] else [].   (* event_service.py:42-60 *)
Definition calls (s : server) (m : incoming) : list (string * option nat) :=
  match m with
  | Poll updated =>                                                               (* poll_service.py:119-126 *)
    if poll_external s then [call s "poll_service" "on_poll"] else if updated then request_event s else []
  | RequestEvent => request_event s
  | CreatedEvent n => if event_external s then repeat (call s "event_service" "on_created_event") n else []    (* event_service.py:92, 122-128 *)
  | RegisterReport n => repeat (call s "report_service" "on_register_report") n  (* report_service.py:112-158 *)
  | UpdateReport n any => if any then [] else repeat (call s "report_service" "on_update_report") n            (* report_service.py:231-236 *)
  | CreatedReport => [call s "report_service" "on_created_report"]               (* report_service.py:268-272 *)
  | QueryRegistration =>                                                          (* registration_service.py:75-76: only if there is one *)
    match call s "registration_service" "on_query_registration" with (n, Some f) => [(n, Some f)] | _ => [] end
  | CreatePartyRegistration => [call s "registration_service" "on_create_party_registration"]   (* registration_service.py:93 *)
  | CancelPartyRegistration => [call s "registration_service" "on_cancel_party_registration"]   (* registration_service.py:134 *)
  end.

(** server.py:206-212: with external polling add_event only logs an error. *)
Definition add_event_accepted (s : server) : bool := negb (event_external s).

(** ** What on_poll may return, and what becomes of it: poll_service.py:128-141.
    An event is a number; [Opaque n] as the member 'events' is the list with
    just this event.  A tuple has two elements. *)
Inductive returned :=
| RNone
| RTuple (t : string) (p : hpayload)
| RList (events : list nat)
| REventDict (n : nat)         (* a dict with a member event_descriptor *)
| REvent (n : nat)             (* an objects.Event *)
| RDict (p : payload)          (* any other dict *)
| ROther.
Definition poll_result (r : returned) : hresult :=
  match r with
  | RNone => HPair "oadrResponse" (HDict [])
  | RTuple t p => HPair t p
  | RList _ => HPair "oadrDistributeEvent" HNotADict
  | REventDict n => HPair "oadrDistributeEvent" (HDict [("events", Opaque n)])
  | REvent n => HPair "oadrDistributeEvent" (HDict [("events", Opaque n)])
  | RDict p => HPair "oadrResponse" (HDict p)
  | ROther => HPair "oadrResponse" HNotADict
  end.
