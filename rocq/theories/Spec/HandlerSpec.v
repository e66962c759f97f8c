(** Vocabulary for C75 and C76: handlers that were added, and what a poll
    should convey. *)
From Coq Require Import String List.
From Verif.Base Require Import Result Dict.
From Verif.Model Require Import VtnService Handlers.
Import ListNotations.
Local Open Scope string_scope.

(** server.py:344-348: the names that the documentation of add_handler lists. *)
Definition documented : list string :=
  ["on_created_event"; "on_request_event"; "on_register_report"; "on_create_report"; "on_created_report"; "on_request_report";
   "on_update_report"; "on_poll"; "on_query_registration"; "on_create_party_registration"; "on_cancel_party_registration"].

(** A server to which these handlers were added, the last one last. *)
Inductive configured : list (string * nat) -> server -> Prop :=
| configured_new : configured [] new_server
| configured_add hist s name f s' : configured hist s -> add_handler name f s = Ok s' -> configured (hist ++ [(name, f)])%list s'.

Definition last_for (hist : list (string * nat)) (name : string) (f : nat) : Prop :=
  exists before later, hist = (before ++ (name, f) :: later)%list /\ ~ In name (map fst later).

(** The answer to a poll that conveys what the handler returned, for what
    poll_service.py:147-150 says it may return. *)
Inductive conveys : returned -> string -> payload -> Prop :=
| conveys_nothing p : conveys RNone "oadrResponse" p
| conveys_event n p : pget "events" p = Some (Opaque n) -> conveys (REvent n) "oadrDistributeEvent" p
| conveys_event_dict n p : pget "events" p = Some (Opaque n) -> conveys (REventDict n) "oadrDistributeEvent" p
| conveys_events l (code : list nat -> nat) p : pget "events" p = Some (Opaque (code l)) -> conveys (RList l) "oadrDistributeEvent" p
| conveys_message t q p : (forall k v, pget k q = Some v -> ~ In k ["vtn_id"; "response"; "request_id"] -> (k = "ven_id" -> mtruthy v = true) -> pget k p = Some v) ->
    conveys (RTuple t (HDict q)) t p.
Inductive offered_result : returned -> Prop :=
| or_none : offered_result RNone
| or_event n : offered_result (REvent n)
| or_event_dict n : offered_result (REventDict n)
| or_list l : offered_result (RList l)
| or_tuple t q : offered_result (RTuple t (HDict q)).
