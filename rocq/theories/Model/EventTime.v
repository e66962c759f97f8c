(** Active periods, event status and the order of events:
    utils.py:609-637 and 789-849. *)
From Coq Require Import ZArith String List Bool.
From Verif.Base Require Import Result Dict PyStr.
From Verif.Model Require Import Objects.
Import ListNotations.
Local Open Scope Z_scope.

(** Python compares two aware or two naive datetimes; comparing one of each
    raises TypeError (and so does their difference). *)
Definition same_kind (a b : when) : bool :=
  match a, b with Aware _, Aware _ | Naive _, Naive _ => true | _, _ => false end.
Definition ticks (w : when) : Z := match w with Aware t => t | Naive t => t end.

Fixpoint min_when (w : when) (l : list when) : result when :=
  match l with
  | [] => Ok w
  | x :: r => if same_kind w x then min_when (if ticks x <? ticks w then x else w) r else Raise TypeError
  end.

Fixpoint max_Z (m : Z) (l : list Z) : Z :=
  match l with [] => m | x :: r => max_Z (if m <? x then x else m) r end.

(** utils.py:609-619 get_active_period_from_intervals.  The list is given by
    the start and duration of each element (intervals, or active periods at
    server.py:301-303).  intervals[0] raises IndexError on an empty list.  The
    result is the start and the duration; as_dict only chooses the container. *)
Definition get_active_period_from_intervals (intervals : list (when * Z)) : result (when * Z) :=
  match intervals with
  | [] => Raise IndexError
  | (s, d) :: r =>
    bind (min_when s (map fst r)) (fun period_start =>
    let total p := ticks (fst p) + snd p - ticks period_start in
    Ok (period_start, max_Z (total (s, d)) (map total r)))
  end.

Section Clock.
(** The instant of a naive wall-clock time in the machine's timezone
    (astimezone on a naive datetime). *)
Context (local : Z -> Z).

(** utils.py:624-628: a naive start is converted and stored back. *)
Definition aware_start (p : active_period) : Z :=
  match ap_start p with Aware t => t | Naive w => local w end.
Definition normalised (p : active_period) : active_period :=
  set_start (Aware (aware_start p)) p.

(** utils.py:622-637 determine_event_status; [now] is datetime.now(utc). *)
Definition determine_event_status (now : Z) (p : active_period) : status * active_period :=
  let start := aware_start p in
  let stop := start + ap_duration p in
  let p' := normalised p in
  if (stop <=? now) && (0 <? ap_duration p) then (Completed, p')
  else if start <=? now then (Active, p')
  else match ap_ramp_up p with
       | Some r => if start - r <=? now then (Near, p') else (Far, p')
       | None => (Far, p')
       end.

(** utils.py:810-816, for one event: [now] is the clock reading inside
    determine_event_status, [now'] the one for created_date_time. *)
Definition refresh (now now' : Z) (e : event) : event :=
  match ev_status e with
  | Cancelled => e
  | old =>
    let '(st, p') := determine_event_status now (ev_period e) in
    let e := set_period p' e in
    if status_eqb old st then e else set_created now' (set_status st e)
  end.

(** utils.py:796-801 event_priority: infinity for a missing or zero priority. *)
Definition event_priority (e : event) : option Z :=
  match ed_priority (ev_descriptor e) with
  | None => None
  | Some p => if p =? 0 then None else Some p
  end.

(** p < q, where None is infinity *)
Definition prio_lt (p q : option Z) : bool :=
  match p, q with
  | Some a, Some b => a <? b
  | Some _, None => true
  | None, _ => false
  end.

End Clock.

(** list.sort is a stable sort; the result of a stable sort is determined, so
    insertion sort stands for it.  [lt x y]: the key of x is less than that of y. *)
Section Sort.
Context {A : Type} (lt : A -> A -> bool).
Fixpoint insert (x : A) (l : list A) : list A :=
  match l with
  | [] => [x]
  | y :: r => if lt y x then y :: insert x r else x :: l
  end.
Fixpoint sort (l : list A) : list A :=
  match l with [] => [] | x :: r => insert x (sort r) end.
End Sort.

(** Sorting by start raises TypeError when naive and aware starts have to be
    compared, that is, when a list has both. *)
Definition comparable (l : list when) : bool :=
  forallb (fun w => match w with Aware _ => true | _ => false end) l ||
  forallb (fun w => match w with Naive _ => true | _ => false end) l.

Section Order.
(** Lines 822-840 are the same for events and for references to events;
    [look] gives the event. *)
Context {A : Type} (look : A -> event).

Definition start_lt (a b : A) : bool := ticks (ev_start (look a)) <? ticks (ev_start (look b)).
Definition is_active (a : A) : bool := status_eqb (ev_status (look a)) Active.

Definition sort_by_start (l : list A) : result (list A) :=
  if comparable (map (fun a => ev_start (look a)) l) then Ok (sort start_lt l) else Raise TypeError.

(** utils.py:822-837 *)
Definition arrange (events : list A) : result (list A) :=
  let active_events := filter is_active events in
  let other_events := filter (fun a => negb (is_active a)) events in
  let active_events := sort (fun a b => prio_lt (event_priority (look a)) (event_priority (look b))) active_events in
  bind (sort_by_start active_events) (fun active_events =>
  bind (sort_by_start other_events) (fun other_events =>
  Ok (active_events ++ other_events)))%list.

(** utils.py:818-840: a single event is returned as it is; the slice is taken
    only when both limit and offset are given and not zero.  Simplification:
    limit and offset are not negative. *)
Definition order_and_slice (events : list A) (limit offset : option nat) : result (list A) :=
  match events with
  | [_] => Ok events
  | _ =>
    bind (arrange events) (fun ordered =>
    match limit, offset with
    | Some (S l as limit), Some (S o as offset) => Ok (firstn limit (skipn offset ordered))
    | _, _ => Ok ordered
    end)
  end.
End Order.

(** utils.py:803-808: what order_events may be called with. *)
Inductive events_arg := NoEvents | OneEvent (e : event) | ManyEvents (l : list event).

(** Refreshing the statuses reads the clock anew for each event: the reading
    for the i-th event is [clock i]. *)
Fixpoint refresh_all (local : Z -> Z) (clock : nat -> Z * Z) (i : nat) (l : list event) : list event :=
  match l with
  | [] => []
  | e :: r => refresh local (fst (clock i)) (snd (clock i)) e :: refresh_all local clock (S i) r
  end.

(** utils.py:789-840 order_events, on events as values. *)
Definition order_events (local : Z -> Z) (clock : nat -> Z * Z) (events : events_arg)
    (limit offset : option nat) : result (option (list event)) :=
  let go l := bind (order_and_slice (fun e => e) (refresh_all local clock 0 l) limit offset) (fun r => Ok (Some r)) in
  match events with
  | NoEvents => Ok None
  | OneEvent e => go [e]
  | ManyEvents l => go l
  end.

(** utils.py:843-849 increment_event_modification_number *)
Definition increment_event_modification_number (e : event) : event := set_mod (ev_mod e + 1) e.
