(** Vocabulary for C90: executions of the report service in which messages
    arrive while others are being worked on. *)
From Coq Require Import ZArith String List.
From Verif.Base Require Import Result Dict.
From Verif.Model Require Import Reports ReportService ReportTasks.
Import ListNotations.
Local Open Scope list_scope.

(** [runs P y ls es z]: from [y] to [z], in any order of messages and answers
    of user code; [P] holds before each step. *)
Inductive runs (P : system -> Prop) (y : system) : list label -> list effect -> system -> Prop :=
| runs_none : runs P y [] [] y
| runs_more ls es y1 l es1 y2 : runs P y ls es y1 -> P y1 -> step y1 l = Some (y2, es1) -> runs P y (ls ++ [l]) (es ++ es1) y2.
Definition any (y : system) : Prop := True.

(** The registrations and confirmations that were answered, in the order of
    the answers. *)
Definition served (es : list effect) : list message :=
  flat_map (fun e => match e with Answered _ m _ | Checked m _ => [m] | _ => [] end) es.
(** What the request [t] handed to user code. *)
Definition handed (t : nat) (es : list effect) : list delivery :=
  flat_map (fun e => match e with Given t' d => if Nat.eq_dec t' t then [d] else [] | _ => [] end) es.
Definition unfinished (t : nat) (es : list effect) : Prop := forall m r, ~ In (Updated t m r) es.

(** registered_reports[ven] *)
Definition entered (s : state) (ven : scalar) : list offered := match get scalar_eqb ven (registered (srv s)) with Some l => l | None => [] end.
Definition callbacks_of (y : system) : callbacks := report_callbacks (srv (st y)).
