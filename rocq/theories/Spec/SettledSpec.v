(** Vocabulary for C92: what stands in a payload after the checks. *)
From Coq Require Import ZArith String List.
From Verif.Base Require Import Result Dict.
From Verif.Model Require Import DateTime Duration Normalize.
Import ListNotations.
Local Open Scope string_scope.
Local Open Scope Z_scope.

(** Targets by type, one by one: a type has a list of targets, or one target;
    anything else is not a target. *)
Inductive listed : vdict -> list val -> Prop :=
| listed_none : listed [] []
| listed_text k s b l : listed b l -> listed ((k, VStr s) :: b) (VDict [(k, VStr s)] :: l)
| listed_end k b l : listed b l -> listed ((k, VList []) :: b) l
| listed_more k x xs b l : listed ((k, VList xs) :: b) l -> listed ((k, VList (x :: xs)) :: b) (VDict [(k, x)] :: l)
| listed_other k v b l : (forall s, v <> VStr s) -> (forall xs, v <> VList xs) -> listed b l -> listed ((k, v) :: b) l.

(** The targets of type [k], in order. *)
Definition of_type (k : string) (ts : list val) : list val :=
  flat_map (fun t => match t with VDict d => flat_map (fun kv => if String.eqb (fst kv) k then match snd kv with VNone => [] | v => [v] end else []) d | _ => [] end) ts.
(** Targets by type in the form that has lists of texts only. *)
Definition tidy_groups (b : vdict) : Prop :=
  NoDup (map fst b) /\ Forall (fun kv => exists s l, snd kv = VList (VStr s :: map VStr l)) b.

(** How long a signal lasts: the durations of its intervals, as far as they
    are durations or texts of durations. *)
Definition one_duration (v : val) (z : Z) : Prop :=
  match v with VDur d => d = z | VStr s => parse_duration (DText s) = Ok z | _ => False end.
Inductive intervals_last : list val -> Z -> Prop :=
| no_intervals : intervals_last [] 0
| more_intervals d v z l t : vget "duration" d = Some v -> one_duration v z -> intervals_last l t -> intervals_last (VDict d :: l) (z + t).
Definition signal_lasts (s : val) (t : Z) : Prop := exists d l, s = VDict d /\ vget "intervals" d = Some (VList l) /\ intervals_last l t.

Record settled_event (now : datetime) (e f : vdict) : Prop := {
  settled_response : vget "response_required" f =
    match vget "response_required" e with Some (VStr "never") => Some (VStr "never") | _ => Some (VStr "always") end;
  settled_created : exists d c,
    vget "event_descriptor" e = Some (VDict d) /\ vget "event_descriptor" f = Some (VDict c)
    /\ vget "created_date_time" c = match vget "created_date_time" d with Some t => if vtruthy t then Some t else Some (VTime now) | None => Some (VTime now) end;
  settled_targets :
    match vget "targets" e, vget "targets_by_type" e with
    | Some ts, _ => vget "targets" f = Some ts
    | None, None => vget "targets" f = None
    | None, Some b => exists d l, b = VDict d /\ listed d l /\ vget "targets" f = Some (VList l)
    end;
  settled_agree : forall ts b, vget "targets" e = Some (VList ts) -> vget "targets_by_type" e = Some b ->
    exists d, b = VDict d /\ (NoDup (map fst d) -> forall k,
      match of_type k ts with
      | [] => vget k d = None
      | l => vget k d = Some (VList l)
      end);
  settled_duration : forall s ss, vget "event_signals" e = Some (VList (s :: ss)) ->
    forall t, signal_lasts s t -> exists a, vget "active_period" f = Some (VDict a) /\ vget "duration" a = Some (VDur t) /\ forall s' t', In s' ss -> signal_lasts s' t' -> t' = t }.
