(** The VEN's events: client.py:1004-1022 (default handlers), 1144-1260
    (_on_event, _event_status_log, _event_cleanup).

    Events are those of Model/Objects.v.  Simplifications: event_signals is the
    list of signals (lines 1204-1207 accept a dict around it too); members that
    the XML schema demands are present; a handler does not modify the event it
    is given. *)
From Coq Require Import ZArith String List Bool Ascii.
From Verif.Base Require Import Result Dict PyStr.
From Verif.Model Require Import Objects EventTime Server.
Import ListNotations.
Local Open Scope string_scope.
Local Open Scope Z_scope.

(** self.received_events and self.responded_events *)
Record vstate := mk_vs { vs_received : list event; vs_responded : dict scalar scalar }.
Definition set_received l s := mk_vs l (vs_responded s).
Definition set_responded d s := mk_vs (vs_received s) d.

Section Chores.
Context (local : Z -> Z).

Fixpoint remove_nth {A} (n : nat) (l : list A) : list A :=
  match n, l with _, [] => [] | O, _ :: r => r | S n, x :: r => x :: remove_nth n r end.

(** Lines 1257-1258.  A received active period starts at an aware time, so
    determine_event_status does not change it. *)
Definition irrelevant (now : Z) (e : event) : bool :=
  status_eqb (ev_status e) Cancelled || status_eqb (fst (determine_event_status local now (ev_period e))) Completed.

(** client.py:1251-1260 _event_cleanup: for i in range(n-1, -1, -1).
    [clock i] is the time at index i. *)
Fixpoint cleanup_from (clock : nat -> Z) (n : nat) (l : list event) : list event :=
  match n with
  | O => l
  | S i => cleanup_from clock i (match nth_error l i with
                                 | Some e => if irrelevant (clock i) e then remove_nth i l else l
                                 | None => l
                                 end)
  end.
Definition event_cleanup (clock : nat -> Z) (l : list event) : list event := cleanup_from clock (length l) l.

(** client.py:1237-1249 _event_status_log *)
Fixpoint status_log_from (clock : nat -> Z) (i : nat) (l : list event) : list event :=
  match l with
  | [] => []
  | e :: r =>
    (if status_eqb (ev_status e) Cancelled then e
     else let s := fst (determine_event_status local (clock i) (ev_period e)) in
          if status_eqb s (ev_status e) then e else set_status s e) :: status_log_from clock (S i) r
  end.
Definition event_status_log (clock : nat -> Z) (l : list event) : list event := status_log_from clock 0 l.

(** The periodic tasks, which may run while a handler is awaited. *)
Inductive chore := Cleanup (clock : nat -> Z) | StatusLog (clock : nat -> Z).
Definition do_chore (c : chore) (s : vstate) : vstate :=
  match c with
  | Cleanup clock => set_received (event_cleanup clock (vs_received s)) s
  | StatusLog clock => set_received (event_status_log clock (vs_received s)) s
  end.
Definition do_chores (cs : list chore) (s : vstate) : vstate := fold_left (fun s c => do_chore c s) cs s.

(** The calls of user handlers. *)
Inductive call := New (e : event) | Update (e : event).

(** What a handler does when called: the periodic tasks that run while it is
    awaited, and its outcome.  It may look at the client's state. *)
Definition handler := nat -> call -> vstate -> list chore * result scalar.

(** client.py:1013-1022, the default on_update_event (without await points) *)
Definition default_update (e : event) (s : vstate) : list chore * result scalar :=
  ([], Ok (match get scalar_eqb (ev_id e) (vs_responded s) with Some v => v | None => SNone end)).

Context (h : handler).

Definition same_id (id : scalar) (e : event) : bool := scalar_eqb (ev_id e) id.
Fixpoint pop_first {A} (p : A -> bool) (l : list A) : list A :=
  match l with [] => [] | x :: r => if p x then r else x :: pop_first p r end.

(** A call as it happened: the position of the event in the message, the call,
    and how it ended. *)
Definition logged := (nat * call * result scalar)%type.

(** Lines 1153-1180: one event of a message. *)
Definition handle_one (i : nat) (e : event) (s : vstate) : vstate * list logged * result scalar :=
  let ask c s := let '(cs, x) := h i c s in (do_chores cs s, [(i, c, x)], x) in
  let '(s, calls, x) :=
    match find (same_id (ev_id e)) (vs_received s) with
    | Some r =>
      if ev_mod r =? ev_mod e then
        (s, [], match get scalar_eqb (ev_id e) (vs_responded s) with Some v => Ok v | None => Raise KeyError end)
      else ask (Update e) (set_received (pop_first (same_id (ev_id e)) (vs_received s) ++ [e])%list s)
    | None => ask (New e) (set_received (vs_received s ++ [e])%list s)
    end in
  match x with
  | Raise err => (s, calls, Raise err)
  | Ok v =>
    (if (match ev_status e with Completed | Cancelled => true | _ => false end) && mem scalar_eqb (ev_id e) (vs_responded s)
     then set_responded (del scalar_eqb (ev_id e) (vs_responded s)) s
     else set_responded (set scalar_eqb (ev_id e) v (vs_responded s)) s, calls, Ok v)
  end.

(** The loop: the results so far are lost when an event raises. *)
Fixpoint handle_all (i : nat) (es : list event) (s : vstate) : vstate * list logged * result (list scalar) :=
  match es with
  | [] => (s, [], Ok [])
  | e :: r =>
    match handle_one i e s with
    | (s, calls, Raise err) => (s, calls, Raise err)
    | (s, calls, Ok v) =>
      let '(s, calls', x) := handle_all (S i) r s in
      (s, (calls ++ calls')%list, bind x (fun vs => Ok (v :: vs)))
    end
  end.

(** str.islower(), for ASCII: some letter, and no capital one. *)
Definition is_lower (c : ascii) : bool := (Ascii.leb "a" c && Ascii.leb c "z")%char.
Definition is_upper (c : ascii) : bool := (Ascii.leb "A" c && Ascii.leb c "Z")%char.
Fixpoint chars (s : string) : list ascii := match s with EmptyString => [] | String c r => c :: chars r end.
Definition islower (s : string) : bool := existsb is_lower (chars s) && forallb (fun c => negb (is_upper c)) (chars s).

Record message := mk_msg { m_events : list event; m_vtn : option scalar; m_request : scalar }.
Record response := mk_resp { rs_code : Z; rs_opt : scalar; rs_request : scalar; rs_mod : Z; rs_id : scalar }.

Definition opt_in := SStr "optIn".
Definition opt_out := SStr "optOut".
Definition is_choice (v : scalar) : bool := scalar_eqb v opt_in || scalar_eqb v opt_out.

(** Lines 1181-1185 *)
Fixpoint checked (es : list event) (vs : list scalar) : list scalar :=
  match es, vs with
  | e :: es, v :: vs => (if negb (is_choice v) && (ev_response e =? "always")%string then opt_out else v) :: checked es vs
  | _, _ => []
  end.

(** Lines 1208-1213 *)
Fixpoint signals_code (l : list signal) : Z :=
  match l with
  | [] => 200
  | s :: r => if inb (sg_name s) SIGNAL_NAME_values then signals_code r else 460
  end.

(** Lines 1201-1219: [clock i] is the time when event i is looked at. *)
Fixpoint responses (clock : nat -> Z) (request : scalar) (i : nat) (es : list event) (vs : list scalar) : list response :=
  match es, vs with
  | e :: es, v :: vs =>
    let rest := responses clock request (S i) es vs in
    if (ev_response e =? "always")%string && negb (status_eqb (fst (determine_event_status local (clock i) (ev_period e))) Completed)
    then mk_resp (signals_code (ev_signals e)) v request (ev_mod e) (ev_id e) :: rest
    else rest
  | _, _ => []
  end.

(** client.py:1144-1235 _on_event: the state afterwards, the handlers called,
    and the oadrCreatedEvent sent (its response code and event responses).
    Raising the number 452 (line 1151) is a TypeError, caught as any other. *)
Definition on_event (clock : nat -> Z) (m : message) (s : vstate) : vstate * list logged * option (Z * list response) :=
  let '(s, calls, invalid, results) :=
    match m_vtn m with
    | Some (SStr v) =>
      if islower v then (s, [], true, Raise TypeError)
      else let '(s, calls, x) := handle_all 0 (m_events m) s in (s, calls, false, bind x (fun vs => Ok (checked (m_events m) vs)))
    | Some _ => (s, [], false, Raise AttributeError)      (* only text has islower() *)
    | None => (s, [], false, Raise KeyError)
    end in
  let vs := match results with Ok vs => vs | Raise _ => map (fun _ => opt_out) (m_events m) end in
  match responses clock (m_request m) 0 (m_events m) vs with
  | [] => (s, calls, None)
  | rs => (s, calls, Some (if invalid : bool then 452 else 200, rs))
  end.

End Chores.
