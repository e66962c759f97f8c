(** The VTN's event queues: service/event_service.py:26-130 (internal polling),
    service/poll_service.py:113-126, server.py:271-338.

    The server runs in one thread; other code runs only while a coroutine is
    suspended.  In the code modelled here that is where a delivery callback
    (event_service.py:72) or an opt callback (event_service.py:120-122) is
    awaited.  Each request is a task; [step] executes one of them (or one call
    of the server's API) up to the next such point.  Every callback counts as a
    possible suspension point: a callback that does not suspend is one that is
    resumed at once, and whatever a callback does to the server itself is one
    of the labels executed in between.  Simplifications: polling_method is
    'internal'; logging is left out; events carry all their members. *)
From Coq Require Import ZArith String List Bool.
From Verif.Base Require Import Result Dict PyStr.
From Verif.Model Require Import Objects EventTime.
Import ListNotations.
Local Open Scope Z_scope.

(** A callback for the VEN's answer: a function or an asyncio.Future. *)
Inductive callback := CFun (n : nat) | CFut (f : nat).

(** A response in an oadrCreatedEvent: event_id, modification_number, opt_type. *)
Record response := mk_resp { rs_id : scalar; rs_mod : scalar; rs_opt : scalar }.

(** The list the delivery loop runs over: the queue itself when order_events
    returned it unchanged (utils.py:818-820), else a list of its own. *)
Inductive source := Live | Snap (refs : list nat).

(** Suspended coroutines. *)
Inductive task :=
| TDeliver (poll : bool) (v : scalar) (src : source) (i : nat)   (* in the delivery callback of element i *)
| TCreated (v : scalar) (rest : list response).                  (* in an opt callback; the remaining responses *)

(** Event objects are referred to by number; [heap] holds their contents.
    [queues] is EventService.events (and server.events), [updated] is
    PollService.events_updated. *)
Record state := mk_st {
  heap : nat -> event;
  next : nat;
  queues : @dict scalar (list nat);
  updated : @dict scalar bool;
  completed : @dict scalar (list scalar);
  callbacks : @dict scalar callback;
  deliveries : @dict scalar nat;
  done : list nat;                      (* futures that are done *)
  tasks : @dict nat task }.

Definition with_heap h s := mk_st h (next s) (queues s) (updated s) (completed s) (callbacks s) (deliveries s) (done s) (tasks s).
Definition with_next n s := mk_st (heap s) n (queues s) (updated s) (completed s) (callbacks s) (deliveries s) (done s) (tasks s).
Definition with_queues q s := mk_st (heap s) (next s) q (updated s) (completed s) (callbacks s) (deliveries s) (done s) (tasks s).
Definition with_updated u s := mk_st (heap s) (next s) (queues s) u (completed s) (callbacks s) (deliveries s) (done s) (tasks s).
Definition with_completed c s := mk_st (heap s) (next s) (queues s) (updated s) c (callbacks s) (deliveries s) (done s) (tasks s).
Definition with_callbacks c s := mk_st (heap s) (next s) (queues s) (updated s) (completed s) c (deliveries s) (done s) (tasks s).
Definition with_deliveries d s := mk_st (heap s) (next s) (queues s) (updated s) (completed s) (callbacks s) d (done s) (tasks s).
Definition with_done d s := mk_st (heap s) (next s) (queues s) (updated s) (completed s) (callbacks s) (deliveries s) d (tasks s).
Definition with_tasks t s := mk_st (heap s) (next s) (queues s) (updated s) (completed s) (callbacks s) (deliveries s) (done s) t.

Definition upd (h : nat -> event) (r : nat) (e : event) : nat -> event :=
  fun r' => if Nat.eqb r' r then e else h r'.

Definition queue (s : state) (v : scalar) : list nat :=
  match get scalar_eqb v (queues s) with Some q => q | None => [] end.
Definition set_queue (v : scalar) (q : list nat) (s : state) : state :=
  with_queues (set scalar_eqb v q (queues s)) s.

(** What an outside observer sees.  [tid] names the request. *)
Inductive effect :=
| ESent (tid : nat) (v : scalar) (events : list (nat * event))  (* oadrDistributeEvent *)
| EEmpty (tid : nat) (v : scalar)                               (* oadrResponse to a poll or event request *)
| EAck (tid : nat) (v : scalar)                                 (* oadrResponse to an oadrCreatedEvent *)
| EFail (tid : nat) (v : scalar) (e : exn)                      (* the handler raises *)
| EDelivery (n : nat) (id : scalar)                             (* a delivery callback is called *)
| ECall (n : nat) (v id opt : scalar)                           (* an opt callback is called *)
| EResult (f : nat) (v id opt : scalar)                         (* a future gets its result *)
| ERaised (e : exn).                                            (* a call of the server's API raises *)

(** ** server.py:271-317 add_raw_event *)

(** The new event object, or one that was added before. *)
Inductive source_event := New (e : event) | Same (r : nat).

(** server.py:300-304: the period of each signal, then the period of those;
    ramp-up, notification and recovery periods are not carried over. *)
Definition period_of_signals (e : event) : result active_period :=
  bind (mapM (fun sg => get_active_period_from_intervals (map (fun i => (iv_start i, iv_duration i)) (sg_intervals sg))) (ev_signals e))
  (fun periods =>
  bind (get_active_period_from_intervals periods) (fun '(start, duration) =>
  Ok (mk_ap start duration None None None))).

(** server.py:297-306: defaults.  The status of the modelled events is never
    empty; a descriptor has no member active_period, so the period is always
    computed anew. *)
Definition prepare (e : event) : result event :=
  bind (period_of_signals e) (fun p =>
  let e := set_period p e in
  Ok (match ed_priority (ev_descriptor e) with
      | None | Some 0 => set_priority (Some 0) e
      | _ => e
      end)).

(** server.py:280-290: [sig_ok] tells whether a callback function takes
    ven_id, event_id and opt_type. *)
Definition callback_ok (e : event) (cb : option callback) (sig_ok : bool) : bool :=
  match cb with
  | Some (CFun _) => if String.eqb (ev_response e) "always" then sig_ok else true
  | _ => true
  end.

Definition add_raw_event (v : scalar) (src : source_event) (cb : option callback) (sig_ok : bool)
    (dcb : option nat) (s : state) : state * list effect :=
  let '(r, e, s) := match src with
                    | New e => (next s, e, with_next (S (next s)) (with_heap (upd (heap s) (next s) e) s))
                    | Same r => (r, heap s r, s)
                    end in
  if callback_ok e cb sig_ok then
    let s := if mem scalar_eqb v (queues s) then s else set_queue v [] s in
    match prepare e with
    | Raise x => (s, [ERaised x])
    | Ok e' =>
      let s := with_heap (upd (heap s) r e') s in
      let s := set_queue v (queue s v ++ [r])%list s in
      let s := with_updated (set scalar_eqb v true (updated s)) s in
      let s := match cb with Some c => with_callbacks (set scalar_eqb (ev_id e) c (callbacks s)) s | None => s end in
      let s := match dcb with Some n => with_deliveries (set scalar_eqb (ev_id e) n (deliveries s)) s | None => s end in
      (s, [])
    end
  else (s, [ERaised ValueError]).

(** ** server.py:319-338 cancel_event *)
Definition find_id (h : nat -> event) (q : list nat) (id : scalar) : option nat :=
  find (fun r => scalar_eqb (ev_id (h r)) id) q.

Definition cancel_event (v id : scalar) (s : state) : state :=
  match get scalar_eqb v (queues s) with
  | None => s
  | Some q =>
    match find_id (heap s) q id with
    | None => s
    | Some r =>
      let s := with_heap (upd (heap s) r (increment_event_modification_number (set_status Cancelled (heap s r)))) s in
      with_updated (set scalar_eqb v true (updated s)) s
    end
  end.

Section WithClock.
Context (local : Z -> Z).

(** ** utils.py:810-816 on event objects *)
Fixpoint refresh_refs (clock : nat -> Z * Z) (i : nat) (refs : list nat) (h : nat -> event) : nat -> event :=
  match refs with
  | [] => h
  | r :: rest => refresh_refs clock (S i) rest (upd h r (refresh local (fst (clock i)) (snd (clock i)) (h r)))
  end.

(** list.pop(list.index(event)): the first equal event. *)
Fixpoint pop_equal (h : nat -> event) (e : event) (q : list nat) : option (list nat) :=
  match q with
  | [] => None
  | r :: rest => if event_eqb (h r) e then Some rest else option_map (cons r) (pop_equal h e rest)
  end.

(** event_service.py:45-53: take completed events off the queue. *)
Fixpoint drop_completed (h : nat -> event) (events : list nat) (q : list nat) (ids : list scalar)
    : result (list nat * list scalar) :=
  match events with
  | [] => Ok (q, ids)
  | r :: rest =>
    if status_eqb (ev_status (h r)) Completed then
      match pop_equal h (h r) q with
      | Some q' => drop_completed h rest q' (ids ++ [ev_id (h r)])%list
      | None => Raise ValueError
      end
    else drop_completed h rest q ids
  end.

(** The next element of the list, from position i on, that has a delivery
    callback (event_service.py:68-72). *)
Fixpoint next_delivery (h : nat -> event) (d : @dict scalar nat) (l : list nat) (i : nat) : option (nat * nat * scalar) :=
  match l with
  | [] => None
  | r :: rest =>
    match get scalar_eqb (ev_id (h r)) d with
    | Some n => Some (i, n, ev_id (h r))
    | None => next_delivery h d rest (S i)
    end
  end.

Definition contents (s : state) (v : scalar) (src : source) : list nat :=
  match src with Live => queue s v | Snap l => l end.

(** event_service.py:68-73 from list position [i] on, then poll_service.py:124
    when the request came in as a poll. *)
Definition deliver (tid : nat) (poll : bool) (v : scalar) (src : source) (i : nat) (s : state) : state * list effect :=
  let l := contents s v src in
  match next_delivery (heap s) (deliveries s) (skipn i l) i with
  | Some (j, n, id) => (with_tasks (set Nat.eqb tid (TDeliver poll v src j) (tasks s)) s, [EDelivery n id])
  | None =>
    let s := with_tasks (del Nat.eqb tid (tasks s)) s in
    let s := if poll then with_updated (set scalar_eqb v false (updated s)) s else s in
    (s, [ESent tid v (map (fun r => (r, heap s r)) l)])
  end.

(** event_service.py:37-74 request_event (and its caller in poll_service.py
    when [poll]) up to the first delivery callback. *)
Definition request_event (tid : nat) (poll : bool) (v : scalar) (clock : nat -> Z * Z) (s : state) : state * list effect :=
  match get scalar_eqb v (queues s) with
  | Some ((_ :: _) as q) =>
    let h := refresh_refs clock 0 q (heap s) in
    let s := with_heap h s in
    match order_and_slice h q None None with
    | Raise e => (s, [EFail tid v e])
    | Ok ordered =>
      let ids := match get scalar_eqb v (completed s) with Some l => l | None => [] end in
      match drop_completed h ordered q ids with
      | Raise e => (s, [EFail tid v e])
      | Ok (q', ids') =>
        let s := set_queue v q' s in
        let s := match ids' with [] => s | _ => with_completed (set scalar_eqb v ids' (completed s)) s end in
        deliver tid poll v (match q with [_] => Live | _ => Snap ordered end) 0 s
      end
    end
  | _ =>
    let s := if poll then with_updated (set scalar_eqb v false (updated s)) s else s in
    (s, [EEmpty tid v])
  end.

(** poll_service.py:113-126 *)
Definition poll (tid : nat) (v : scalar) (clock : nat -> Z * Z) (s : state) : state * list effect :=
  match get scalar_eqb v (updated s) with
  | Some true => request_event tid true v clock s
  | _ => (s, [EEmpty tid v])
  end.

(** ** event_service.py:87-130 created_event *)
Definition find_response (h : nat -> event) (q : list nat) (rs : response) : option nat :=
  find (fun r => scalar_eqb (ev_id (h r)) (rs_id rs) && scalar_eqb (SInt (ev_mod (h r))) (rs_mod rs)) q.

(** pop_by(queue, 'event_descriptor.event_id', event_id) *)
Fixpoint pop_id (h : nat -> event) (id : scalar) (q : list nat) : list nat :=
  match q with
  | [] => []
  | r :: rest => if scalar_eqb (ev_id (h r)) id then rest else r :: pop_id h id rest
  end.

Definition InvalidIdError : exn := ProtocolError 452 "Invalid ID".

(** The loop at lines 93-122 up to the next opt callback. *)
Fixpoint created_event (tid : nat) (v : scalar) (responses : list response) (s : state) : state * list effect :=
  match responses with
  | [] => (with_tasks (del Nat.eqb tid (tasks s)) s, [EAck tid v])
  | rs :: rest =>
    let fail x := (with_tasks (del Nat.eqb tid (tasks s)) s, [EFail tid v x]) in
    match get scalar_eqb v (queues s) with
    | None => fail KeyError
    | Some q =>
      match find_response (heap s) q rs with
      | None =>
        if existsb (scalar_eqb (rs_id rs)) (match get scalar_eqb v (completed s) with Some l => l | None => [] end)
        then fail TypeError        (* line 107: getmember(None, ...) *)
        else fail InvalidIdError
      | Some r =>
        let s := if status_eqb (ev_status (heap s r)) Cancelled then set_queue v (pop_id (heap s) (rs_id rs) q) s else s in
        match get scalar_eqb (rs_id rs) (callbacks s) with
        | None => created_event tid v rest s
        | Some c =>
          let s := with_callbacks (del scalar_eqb (rs_id rs) (callbacks s)) s in
          match c with
          | CFut f =>
            if existsb (Nat.eqb f) (done s) then created_event tid v rest s
            else let '(s', es) := created_event tid v rest (with_done (f :: done s) s) in
                 (s', EResult f v (rs_id rs) (rs_opt rs) :: es)
          | CFun n =>
            (with_tasks (set Nat.eqb tid (TCreated v rest) (tasks s)) s, [ECall n v (rs_id rs) (rs_opt rs)])
          end
        end
      end
    end
  end.

(** ** The scheduler *)
Inductive label :=
| LAdd (v : scalar) (src : source_event) (cb : option callback) (sig_ok : bool) (dcb : option nat)
| LCancel (v id : scalar)
| LPoll (tid : nat) (v : scalar) (clock : nat -> Z * Z)
| LRequest (tid : nat) (v : scalar) (clock : nat -> Z * Z)
| LCreated (tid : nat) (v : scalar) (responses : list response)
| LResume (tid : nat) (outcome : result unit)     (* the callback returned or raised *)
| LFuture (f : nat).                              (* the user's own code completes a future *)

(** A label is not enabled (None) when its task does not exist, or when the
    name of a new task is taken, or when an object does not exist. *)
Definition step (s : state) (l : label) : option (state * list effect) :=
  match l with
  | LAdd v (Same r) cb ok dcb => if Nat.ltb r (next s) then Some (add_raw_event v (Same r) cb ok dcb s) else None
  | LAdd v src cb ok dcb => Some (add_raw_event v src cb ok dcb s)
  | LCancel v id => Some (cancel_event v id s, [])
  | LPoll tid v clock => if mem Nat.eqb tid (tasks s) then None else Some (poll tid v clock s)
  | LRequest tid v clock => if mem Nat.eqb tid (tasks s) then None else Some (request_event tid false v clock s)
  | LCreated tid v responses => if mem Nat.eqb tid (tasks s) then None else Some (created_event tid v responses s)
  | LResume tid outcome =>
    match get Nat.eqb tid (tasks s) with
    | None => None
    | Some t =>
      let v := match t with TDeliver _ v _ _ => v | TCreated v _ => v end in
      match outcome with
      | Raise e => Some (with_tasks (del Nat.eqb tid (tasks s)) s, [EFail tid v e])
      | Ok tt =>
        match t with
        | TDeliver p v src i => Some (deliver tid p v src (S i) s)
        | TCreated v rest => Some (created_event tid v rest s)
        end
      end
    end
  | LFuture f => Some (with_done (f :: done s) s, [])
  end.

Fixpoint run (s : state) (ls : list label) : option (state * list effect) :=
  match ls with
  | [] => Some (s, [])
  | l :: rest =>
    match step s l with
    | None => None
    | Some (s', es) => match run s' rest with None => None | Some (s'', es') => Some (s'', es ++ es')%list end
    end
  end.
End WithClock.

(** A server that was just created. *)
Definition initial (s : state) : Prop :=
  next s = 0%nat /\ queues s = [] /\ updated s = [] /\ completed s = [] /\ callbacks s = [] /\ deliveries s = [] /\ done s = [] /\ tasks s = [].
