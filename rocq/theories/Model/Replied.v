(** What a VTN reads of an oadrCreatedEvent: service/event_service.py:87-130
    (created_event).

    A payload is what the parser has made of the message (Model/Normalize).
    What follows for the queues and callbacks is in Model/EventService.v.
    Simplifications: what the user's handler does is an argument; values of
    Python that are equal across types (1 == True == 1.0) are kept apart;
    logging is left out. *)
From Coq Require Import ZArith String Ascii List Bool.
From Verif.Base Require Import Result Dict.
From Verif.Model Require Import Normalize Polled.
From Verif.Model Require EventService.
Import ListNotations.
Local Open Scope string_scope.

(** for x in v: a dict gives its keys, a text its characters. *)
Definition each (v : val) : result (list val) :=
  match v with
  | VList l => Ok l
  | VDict d => Ok (map (fun kv => VStr (fst kv)) d)
  | VStr s => Ok (map (fun c => VStr (String c "")) (list_ascii_of_string s))
  | _ => Raise TypeError
  end.

(** A call of on_created_event. *)
Record call := mk_call { c_ven : val; c_event : val; c_opt : val }.

(** Lines 122-128: the loop for a user's own handler.  The calls that were made,
    and how it ended. *)
Fixpoint hand_over (on : call -> result unit) (ven : val) (responses : list val) : list call * result unit :=
  match responses with
  | [] => ([], Ok tt)
  | r :: rest =>
    match bind (item "event_id" r) (fun i => bind (item "opt_type" r) (fun o => Ok (mk_call ven i o))) with
    | Raise e => ([], Raise e)
    | Ok c =>
      match on c with
      | Raise e => ([c], Raise e)
      | Ok _ => let '(calls, out) := hand_over on ven rest in (c :: calls, out)
      end
    end
  end.
(** Lines 91-92 and 122-129, with polling_method other than internal *)
Definition created_external (on : call -> result unit) (p : vdict) : list call * result unit :=
  match vget "ven_id" p with
  | None => ([], Raise KeyError)
  | Some ven =>
    match vget "event_responses" p with
    | None => ([], Raise KeyError)
    | Some v => match each v with Raise e => ([], Raise e) | Ok l => hand_over on ven l end
    end
  end.

(** Lines 94-107, with polling_method internal: whether the event that a
    response is about is found.  [queue]: the ids and modification numbers of
    self.events[ven_id], if there is such a list; [completed]:
    self.completed_event_ids.get(ven_id, []).  (Line 107 is a TypeError for
    an event that was completed and is gone, Model/EventService.v.) *)
Definition looked_up (queue : option (list (val * val))) (completed : list val) (r : val) : result unit :=
  bind (item "event_id" r) (fun i => bind (item "modification_number" r) (fun n => bind (item "opt_type" r) (fun _ =>
  match queue with
  | None => Raise KeyError
  | Some q =>
    if existsb (fun e => same (fst e) i && same (snd e) n) q then Ok tt
    else if existsb (same i) completed then Raise TypeError else Raise EventService.InvalidIdError
  end))).
(** payload['event_responses'], as far as it can be gone through *)
Definition responses_read (p : vdict) : result (list val) :=
  match vget "event_responses" p with None => Raise KeyError | Some v => each v end.
