(** Vocabulary for C82: what callbacks return, whatever and however much it is,
    and where it is afterwards. *)
From Coq Require Import ZArith String List.
From Verif.Base Require Import Result Dict PyStr.
From Verif.Model Require Import ClientReports.
From Verif.Spec Require Import ClientReportSpec.
Import ListNotations.
Local Open Scope Z_scope.

(** A value of a data point. *)
Definition value := (scalar * Z * scalar)%type.
Definition seen (l : list oint) : list value := map (fun i => (oi_rid i, oi_dtstart i, oi_value i)) l.

Section Answers.
Context (call : nat -> scalar -> result sample) (st : cstate) (mode : string) (specifier : scalar).
(** The callback of data point [r] answers with these values. *)
Inductive answers (r : scalar) : list (Z * scalar) -> Prop :=
| a_number c t v : mode <> "full"%string -> get ckey_eqb (specifier, r) (cs_callbacks st) = Some c -> call c r = Ok (Number t v) -> answers r [(t, v)]
| a_series c l : get ckey_eqb (specifier, r) (cs_callbacks st) = Some c -> call c r = Ok (Series l) -> answers r l
| a_nobody : mode <> "full"%string -> get ckey_eqb (specifier, r) (cs_callbacks st) = None -> answers r []
| a_key c : mode <> "full"%string -> get ckey_eqb (specifier, r) (cs_callbacks st) = Some c -> call c r = Raise KeyError -> answers r [].
(** One sampling of several data points. *)
Inductive gathered : list scalar -> list value -> Prop :=
| g_nil : gathered [] []
| g_cons r rs l vs : answers r l -> gathered rs vs -> gathered (r :: rs) (map (fun p => (r, fst p, snd p)) l ++ vs).
End Answers.

(** What is in the report that is being made for request [id], and all that
    was sampled for it: queued for sending, or there. *)
Definition held (id : scalar) (st : cstate) : list oint :=
  match get scalar_eqb id (cs_incomplete st) with Some og => og_intervals og | None => [] end.
Definition all_values (id : scalar) (st : cstate) : list value :=
  (flat_map (fun og => seen (og_intervals og)) (queued_for id st) ++ seen (held id st))%list.

(** The request is sampled several times for one report. *)
Definition collects (request : rr) (report : crep) (b g : Z) : Prop :=
  cr_mode report = "incremental"%string /\ rr_back request = Some b /\ rr_gran request = Some g /\ 0 < g < b.

(** [id] is a request for [report]. *)
Definition asked_for (id : scalar) (request : rr) (report : crep) (st : cstate) : Prop :=
  first (fun r => rr_id r = id) (cs_requests st) request /\ first (fun r => cr_specifier r = rr_specifier request) (cs_reports st) report.
