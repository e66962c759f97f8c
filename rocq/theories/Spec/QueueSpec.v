(** Vocabulary for C30-C37: histories of the VTN's event queues. *)
From Coq Require Import ZArith String List Bool.
From Verif.Base Require Import Result.
From Verif.Model Require Import Objects EventTime EventService.
Import ListNotations.
Local Open Scope Z_scope.

(** [runs local P s ls es s']: from state [s] the labels [ls] are executed one
    after the other, each satisfying [P] in the state in which it is executed;
    [es] are the observable effects and [s'] is the final state. *)
Inductive runs (local : Z -> Z) (P : state -> label -> Prop) : state -> list label -> list effect -> state -> Prop :=
| runs_nil s : runs local P s [] [] s
| runs_snoc s ls es s1 l es1 s2 : runs local P s ls es s1 -> P s1 l -> step local s1 l = Some (s2, es1) ->
    runs local P s (ls ++ [l]) (es ++ es1) s2.

Definition any (s : state) (l : label) : Prop := True.

(** The VEN a label is about; for a resumed request the VEN that sent it. *)
Definition about (s : state) (l : label) (v : scalar) : Prop :=
  match l with
  | LAdd w _ _ _ _ | LCancel w _ | LPoll _ w _ | LRequest _ w _ | LCreated _ w _ => w = v
  | LResume tid _ => exists t, Dict.get Nat.eqb tid (tasks s) = Some t /\
                     match t with TDeliver _ w _ _ | TCreated w _ => w = v end
  | LFuture _ => False
  end.

(** The events queued for a VEN, as contents. *)
Definition queued (s : state) (v : scalar) : list event := map (heap s) (queue s v).

(** What distinguishes an event from others, and everything else about it that
    only the user sets. *)
Definition same_event (a b : event) : Prop :=
  ev_id a = ev_id b /\ ev_signals a = ev_signals b /\ ev_targets a = ev_targets b /\ ev_tbt a = ev_tbt b /\
  ev_response a = ev_response b /\ ed_context (ev_descriptor a) = ed_context (ev_descriptor b) /\
  ed_test (ev_descriptor a) = ed_test (ev_descriptor b) /\ ed_comment (ev_descriptor a) = ed_comment (ev_descriptor b).

(** [later a b]: b is a later version of the same event: the modification
    number has not gone down, and has gone up if b is cancelled and a is not;
    a cancelled event stays cancelled. *)
Definition later (a b : event) : Prop :=
  same_event a b /\ ev_mod a <= ev_mod b /\ (ev_status a = Cancelled -> ev_status b = Cancelled) /\
  (ev_status a <> Cancelled -> ev_status b = Cancelled -> ev_mod a < ev_mod b).

(** The object, and its contents, that an add is about. *)
Definition object_of (s : state) (src : source_event) : nat := match src with New _ => next s | Same r => r end.
Definition content_of (s : state) (src : source_event) : event := match src with New e => e | Same r => heap s r end.

(** In the history [ls] the object [r] was added for the VEN [v], and [e] is a
    later version of what was added. *)
Definition added (local : Z -> Z) (P : state -> label -> Prop) (s0 : state) (ls : list label) (v : scalar) (r : nat) (e : event) : Prop :=
  exists ls1 es1 s1 src cb ok dcb ls2, ls = (ls1 ++ LAdd v src cb ok dcb :: ls2)%list /\ runs local P s0 ls1 es1 s1 /\
    object_of s1 src = r /\ later (content_of s1 src) e.

(** The label starts the task [t]. *)
Definition starts (l : label) (t : nat) : Prop :=
  match l with LPoll t' _ _ | LRequest t' _ _ | LCreated t' _ _ => t' = t | _ => False end.

(** The step executes (part of) poll [t] of the VEN; a poll of the VEN is
    waiting for a delivery callback. *)
Definition poll_step (s : state) (l : label) (v : scalar) (t : nat) : Prop :=
  (exists clock, l = LPoll t v clock) \/
  (exists src i, l = LResume t (Ok tt) /\ Dict.get Nat.eqb t (tasks s) = Some (TDeliver true v src i)).
Definition poll_waiting (s : state) (v : scalar) : Prop :=
  exists t src i, Dict.get Nat.eqb t (tasks s) = Some (TDeliver true v src i).

(** The step answers a poll of the VEN. *)
Definition poll_done (local : Z -> Z) (s : state) (l : label) (v : scalar) : Prop :=
  exists t s' es, step local s l = Some (s', es) /\ poll_step s l v t /\
    ((exists evs, In (ESent t v evs) es) \/ In (EEmpty t v) es).

(** The step adds an event for the VEN or cancels one of its queued events. *)
Definition update (s : state) (l : label) (es : list effect) (v : scalar) (r : nat) : Prop :=
  es = [] /\
  ((exists src cb ok dcb, l = LAdd v src cb ok dcb /\ object_of s src = r) \/
   (exists id q1 q2, l = LCancel v id /\ queue s v = (q1 ++ r :: q2)%list /\ ev_id (heap s r) = id /\
      forall x, In x q1 -> ev_id (heap s x) <> id)).
Definition no_update (v : scalar) (s : state) (l : label) : Prop :=
  match l with LAdd w _ _ _ _ | LCancel w _ => w <> v | _ => True end.

(** No two queued events of the VEN have the same id: an event is added for a
    VEN only if no event with that id is queued for it. *)
Definition id_of (s : state) (src : source_event) : scalar :=
  match src with New e => ev_id e | Same r => ev_id (heap s r) end.
Definition distinct_ids (s : state) (l : label) : Prop :=
  match l with
  | LAdd v src _ _ _ => ~ In (id_of s src) (map ev_id (queued s v))
  | _ => True
  end.

(** Every event object is added only once. *)
Definition no_sharing (s : state) (l : label) : Prop :=
  match l with LAdd _ (Same _) _ _ _ => False | _ => True end.

(** The callback [c] is invoked: a function is called or a future gets its
    result. *)
Definition invokes (c : callback) (e : effect) : bool :=
  match c, e with
  | CFun n, ECall m _ _ _ => Nat.eqb n m
  | CFut f, EResult g _ _ _ => Nat.eqb f g
  | _, _ => false
  end.
Definition adds_callback (c : callback) (l : label) : bool :=
  match l, c with
  | LAdd _ _ (Some (CFun m)) _ _, CFun n => Nat.eqb n m
  | LAdd _ _ (Some (CFut g)) _ _, CFut f => Nat.eqb f g
  | _, _ => false
  end.
Definition count {A} (p : A -> bool) (l : list A) : nat := length (filter p l).

(** The responses a step works through for a VEN. *)
Definition answers (s : state) (l : label) (v : scalar) (rs : list response) : Prop :=
  exists tid, l = LCreated tid v rs \/ (l = LResume tid (Ok tt) /\ Dict.get Nat.eqb tid (tasks s) = Some (TCreated v rs)).
