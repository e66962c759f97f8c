(** Vocabulary for C47-C51: the VEN's handling of events. *)
From Coq Require Import ZArith String List Bool Ascii.
From Verif.Base Require Import Result Dict PyStr.
From Verif.Model Require Import Objects Server ClientEvents.
From Verif.Spec Require Import EventSpec.
Import ListNotations.
Local Open Scope string_scope.
Local Open Scope Z_scope.

(** The active period is over at [t]. *)
Definition completed_at (local : Z -> Z) (t : Z) (p : active_period) : Prop :=
  exists s, starts_at local (ap_start p) s /\ implied s (ap_duration p) (ap_ramp_up p) t Completed.

(** Event [e], at position [i], must be answered. *)
Definition due (local : Z -> Z) (clock : nat -> Z) (i : nat) (e : event) : Prop :=
  ev_response e = "always" /\ ~ completed_at local (clock i) (ev_period e).

(** The elements with a property, with their positions, in order. *)
Inductive those {A} (P : nat -> A -> Prop) : nat -> list A -> list (nat * A) -> Prop :=
| th_nil i : those P i [] []
| th_yes i x l r : P i x -> those P (S i) l r -> those P i (x :: l) ((i, x) :: r)
| th_no i x l r : ~ P i x -> those P (S i) l r -> those P i (x :: l) r.

Definition chosen (v a : scalar) : Prop :=
  (v = SStr "optIn" \/ v = SStr "optOut") /\ a = v \/ (v <> SStr "optIn" /\ v <> SStr "optOut") /\ a = SStr "optOut".

Definition supported (e : event) : Prop := forall s, In s (ev_signals e) -> In (sg_name s) SIGNAL_NAME_values.

(** [r] answers [e] with [a]. *)
Definition answers (m : message) (e : event) (a : scalar) (r : response) : Prop :=
  rs_id r = ev_id e /\ rs_mod r = ev_mod e /\ rs_request r = m_request m /\ rs_opt r = a /\ (supported e /\ rs_code r = 200 \/ ~ supported e /\ rs_code r = 460).

(** The VTN's id is text that is not all in lower case (some letter is
    small, none is a capital). *)
Definition lower_case (s : string) : Prop :=
  (exists c, In c (chars s) /\ (nat_of_ascii "a" <= nat_of_ascii c <= nat_of_ascii "z")%nat) /\
  forall c, In c (chars s) -> ~ (nat_of_ascii "A" <= nat_of_ascii c <= nat_of_ascii "Z")%nat.
Definition proper_vtn (m : message) : Prop := exists s, m_vtn m = Some (SStr s) /\ ~ lower_case s.

(** What is remembered about an event that comes in. *)
Inductive known (l : list event) (e : event) : option call -> Prop :=
| k_new : (forall r, In r l -> ev_id r <> ev_id e) -> known l e (Some (New e))
| k_same r : In r l -> ev_id r = ev_id e -> ev_mod r = ev_mod e -> known l e None
| k_changed r : In r l -> ev_id r = ev_id e -> ev_mod r <> ev_mod e -> known l e (Some (Update e)).

Definition one_copy (s : vstate) : Prop := NoDup (map ev_id (vs_received s)).
(** Every remembered event has an answer. *)
Definition all_answered (s : vstate) : Prop := forall r, In r (vs_received s) -> mem scalar_eqb (ev_id r) (vs_responded s) = true.

(** A handler that does not wait. *)
Definition prompt (h : handler) : Prop := forall i c s, fst (h i c s) = [].

(** ** Histories (C48, C49) *)
Inductive op := OMessage (h : handler) (clock : nat -> Z) (m : message) | OChore (c : chore).
Definition step (local : Z -> Z) (s : vstate) (o : op) : vstate :=
  match o with
  | OMessage h clock m => fst (fst (on_event local h clock m s))
  | OChore c => do_chore local c s
  end.
Definition run (local : Z -> Z) (ops : list op) (s : vstate) : vstate := fold_left (step local) ops s.

(** A periodic task at times when [p] is not over. *)
Definition before_end (local : Z -> Z) (p : active_period) (c : chore) : Prop :=
  match c with Cleanup clock | StatusLog clock => forall i, ~ completed_at local (clock i) p end.

(** An operation that leaves event [id] as it is: messages repeat it (if at
    all) with the same modification number and not as completed or cancelled,
    and the periodic tasks run before it is over. *)
Definition unchanged (local : Z -> Z) (id : scalar) (n : Z) (p : active_period) (o : op) : Prop :=
  match o with
  | OMessage h _ m => (forall e, In e (m_events m) -> ev_id e = id -> ev_mod e = n /\ ev_status e <> Completed /\ ev_status e <> Cancelled) /\
                      (forall i c s, Forall (before_end local p) (fst (h i c s)))
  | OChore c => before_end local p c
  end.

(** [e] is remembered with answer [v]. *)
Definition settled (id : scalar) (n : Z) (p : active_period) (v : scalar) (s : vstate) : Prop :=
  (exists r, In r (vs_received s) /\ ev_id r = id /\ ev_mod r = n /\ ev_period r = p /\ ev_status r <> Cancelled) /\ get scalar_eqb id (vs_responded s) = Some v.

(** The event a call is about; the calls for one event of the message. *)
Definition subject (c : call) : event := match c with New e | Update e => e end.
Definition called (log : list logged) (i : nat) (c : call) : Prop := exists x, In (i, c, x) log.
Definition asked_about (log : list logged) (e : event) : Prop := exists i c, called log i c /\ subject c = e.
(** No handler raised. *)
Definition no_failure (log : list logged) : Prop := forall i c x, In (i, c, x) log -> exists v, x = Ok v.
