(** Vocabulary for C52-C56 and C63: what a report request selects, and what a
    sequence of samplings should produce. *)
From Coq Require Import ZArith String List.
From Verif.Base Require Import Result Dict PyStr.
From Verif.Model Require Import Text Measurements Cron Preflight ClientReports.
Import ListNotations.
Local Open Scope string_scope.
Local Open Scope Z_scope.

(** The first element with a property. *)
Inductive first {A} (P : A -> Prop) : list A -> A -> Prop :=
| f_here x l : P x -> first P (x :: l) x
| f_later x y l : ~ P x -> first P l y -> first P (x :: l) y.

(** The data point that a specifier payload names, with the measurement it
    names, if any. *)
Definition names (heap : list mdict) (report : crep) (p : spayload) (rd : cdesc) : Prop :=
  first (fun d => cd_rid d = sp_rid p) (cr_descs report) rd /\
  forall description unit, sp_meas p = Some (description, unit) ->
    exists a m, cd_meas rd = Some a /\ nth_error heap a = Some m /\ md_description m = Some description /\ md_unit m = Some unit.

(** A granularity of zero asks for a single report; none at all means the
    slowest rate of the first data point. *)
Definition permitted (g : option Z) (rd : cdesc) : Prop := forall x, g = Some x -> x = 0 \/ cd_lo rd <= x <= cd_hi rd.

Inductive selected (heap : list mdict) (report : crep) : option Z -> list spayload -> list scalar -> option Z -> Prop :=
| se_nil g : selected heap report g [] [] g
| se_skip g p ps rids g' : (forall rd, ~ (names heap report p rd /\ permitted g rd)) -> selected heap report g ps rids g' ->
    selected heap report g (p :: ps) rids g'
| se_take g p ps rids g' rd : names heap report p rd -> permitted g rd ->
    selected heap report (Some (match g with Some x => x | None => cd_hi rd end)) ps rids g' ->
    selected heap report g (p :: ps) (sp_rid p :: rids) g'.

(** A request that the VEN takes for a test of its errors. *)
Definition marked_invalid (q : creq) : Prop :=
  exists p ps, cq_payloads q = p :: ps /\ exists s, (cq_specifier q = SStr s \/ sp_rid p = SStr s) /\ exists a b, s = (a ++ "INVALID" ++ b)%string.

(** The stored request for [q], with the r_ids [rids] of its own. *)
Definition selects (st : cstate) (q : creq) (rids : list scalar) (g : option Z) : Prop :=
  (exists report, first (fun r => cr_specifier r = cq_specifier q) (cs_reports st) report /\ selected (cs_heap st) report (cq_gran q) (cq_payloads q) rids g) \/
  ((forall r, In r (cs_reports st) -> cr_specifier r <> cq_specifier q) /\ rids = [] /\ g = cq_gran q).

(** The earliest time. *)
Definition earliest (l : list oint) (t : Z) : Prop :=
  (exists x, In x l /\ oi_dtstart x = t) /\ forall x, In x l -> t <= oi_dtstart x.

(** ** Samplings (C53) *)

(** One sampling of the data points [rids]: each callback returns one value. *)
Definition one_each (call : nat -> scalar -> result sample) (st : cstate) (specifier : scalar) (rids : list scalar) (ints : list oint) : Prop :=
  Forall2 (fun r i => exists c t v, Dict.get ckey_eqb (specifier, r) (cs_callbacks st) = Some c /\ call c r = Ok (Number t v) /\ i = mk_oint r t v None) rids ints.

(** A run: samplings of any requests, one after the other.  What the callbacks
    answer differs from sampling to sampling. *)
Definition sampling := (scalar * (nat -> scalar -> result sample))%type.
Definition run (quotient : Z -> Z -> Z) (evs : list sampling) (st : cstate) : cstate :=
  fold_left (fun st '(id, call) => fst (update_report call quotient id st)) evs st.
Definition of_request (id : scalar) (evs : list sampling) : list (nat -> scalar -> result sample) :=
  map snd (filter (fun e => scalar_eqb (fst e) id) evs).
Definition queued_for (id : scalar) (st : cstate) : list outgoing := filter (fun og => scalar_eqb (og_request og) id) (cs_pending st).

(** The name without the words METADATA_ that are in it, from left to right. *)
Inductive stripped : string -> string -> Prop :=
| st_end : stripped "" ""
| st_drop r r' : stripped r r' -> stripped ("METADATA_" ++ r) r'
| st_keep c r r' : (forall t, String c r <> "METADATA_" ++ t) -> stripped r r' -> stripped (String c r) (String c r').

(** [og] reports exactly the intervals [l] for request [id]. *)
Definition reports_exactly (id : scalar) (report : crep) (l : list oint) (og : outgoing) : Prop :=
  og_request og = id /\ og_specifier og = cr_specifier report /\ stripped (cr_name report) (og_name og) /\ og_intervals og = l /\
  exists t, og_dtstart og = Some t /\ earliest l t.

(** The samples [vs] are cut into groups of [k], each the content of one
    queued report; [rest] are those that are not yet in one. *)
Definition batches (id : scalar) (report : crep) (k : nat) (vs : list (list oint)) (reports : list outgoing) (rest : list (list oint)) : Prop :=
  exists groups, vs = (concat groups ++ rest)%list /\ (length rest < k)%nat /\
    Forall2 (fun g og => length g = k /\ reports_exactly id report (concat g) og) groups reports.

(** ** The worker (C54): the cancellations the VTN asked for *)
Fixpoint asked (answers : nat -> outgoing -> result answer) (n : nat) (queue : list outgoing) : list scalar :=
  match queue with
  | [] => []
  | og :: r => (match answers n og with Ok (Pair _ (Some id)) => [id] | _ => [] end ++ asked answers (S n) r)%list
  end.

(** ** add_report (C55) *)

(** The sampling rate that is asked for, in microseconds: ten seconds to an hour
    unless something else is said. *)
Inductive rated : sarg -> Z -> Z -> Prop :=
| ra_default : rated RateDefault 10000000 3600000000
| ra_one d : rated (RateDelta d) d d
| ra_given lo hi : rated (RateGiven lo hi) lo hi.

(** The measurement argument names this measurement. *)
Definition measures (m : marg) (unit scale : option string) (heap : list mdict) (a : nat) (x : mdict) : Prop :=
  match m with
  | MObject a' => a' = a /\ nth_error heap a = Some x
  | MText s =>
      (exists b, nth_error measurements a = Some b /\ fst (fst (fst (fst b))) = upper s /\ (forall j c, (j < a)%nat -> nth_error measurements j = Some c -> fst (fst (fst (fst c))) <> upper s) /\
         nth_error heap a = Some x) \/
      ((forall b, In b measurements -> fst (fst (fst (fst b))) <> upper s) /\ a = length heap /\
         md_description x = Some s /\ md_unit x = unit /\ md_scale x = scale /\ md_name x = Some "customUnit")
  | MDict _ | MNone => False
  end.

(** The report that add_report extends. *)
Definition extends (q : areq) (r : crep) : Prop :=
  cr_name r = q_name q /\ forall s, q_specifier q = Some s -> s <> "" -> cr_specifier r = SStr s.

Definition or_generated (given : option string) (generated x : string) : Prop :=
  (exists s, given = Some s /\ s <> "" /\ x = s) \/ ((given = None \/ given = Some "") /\ x = generated).

(** The arguments that add_report accepts. *)
Definition accepted (q : areq) (st : cstate) : Prop :=
  (In (q_name q) REPORT_NAME_values \/ exists x, q_name q = ("x-" ++ x)%string) /\
  (In (q_reading q) READING_TYPE_values \/ exists x, q_reading q = ("x-" ++ x)%string) /\
  (In (q_type q) REPORT_TYPE_values \/ exists x, q_type q = ("x-" ++ x)%string) /\
  (exists s, q_scale q = Some s /\ In s SI_SCALE_CODE_values) /\
  (q_mode q = "incremental" \/ q_mode q = "full" /\ q_accepts q = true) /\
  (q_name q = "TELEMETRY_STATUS" /\ q_unit q = None \/
   q_name q <> "TELEMETRY_STATUS" /\ exists a m, measures (q_measurement q) (q_unit q) (q_scale q) (cs_heap st) a m /\ md_scale m <> None).

(** ** cancel_report (C56) *)

(** The life of the VEN's reports: messages with report requests, samplings,
    jobs that run and cancellations (in two parts, with anything between
    them), in any order and with any outcome. *)
Inductive history (ok : cstate -> list creq -> Prop) : cstate -> Prop :=
| h_start st : cs_requests st = [] -> cs_jobs st = [] -> history ok st
| h_create st call quotient qs : history ok st -> ok st qs -> history ok (fst (create_report call quotient qs st))
| h_sample st call quotient id : history ok st -> history ok (fst (update_report call quotient id st))
| h_job st call quotient j : history ok st -> history ok (fst (run_job call quotient j st))
| h_done st n : history ok st -> history ok (set_jobs (filter (fun j => negb (Nat.eqb (fst j) n && match snd j with Once _ _ => true | _ => false end)) (cs_jobs st)) (cs_next_job st) st)
| h_cancel_begin st call quotient id : history ok st -> history ok (fst (cancel_begin call quotient id st))
| h_cancel_end st call quotient r follow : history ok st -> history ok (fst (cancel_end call quotient r follow st)).

(** No request id is used for two requests. *)
Definition new_ids (st : cstate) (qs : list creq) : Prop := NoDup (map rr_id (cs_requests st) ++ map cq_id qs).
Definition any_ids (st : cstate) (qs : list creq) : Prop := True.

Definition recurring_for (id : scalar) (j : job) : bool := match j with Recurring i _ => scalar_eqb i id | Once _ _ => false end.

(** [l'] is [l] without the elements that have property [P]. *)
Inductive without_those {A} (P : A -> Prop) : list A -> list A -> Prop :=
| wt_nil : without_those P [] []
| wt_drop x l l' : P x -> without_those P l l' -> without_those P (x :: l) l'
| wt_keep x l l' : ~ P x -> without_those P l l' -> without_those P (x :: l) (x :: l').

(** The stored entry for request [q], apart from its r_ids and its job. *)
Definition stored_as (q : creq) (g : option Z) (r : rr) : Prop :=
  rr_id r = cq_id q /\ rr_specifier r = cq_specifier q /\ rr_back r = cq_back q /\ rr_gran r = g.

(** The request asks for a single report. *)
Definition asks_once (q : creq) (rids : list scalar) (g : option Z) : Prop := rids <> [] /\ g = Some 0 /\ (cq_gran q = Some 0 \/ (1 < length rids)%nat).

(** How often a recurring report is sampled. *)
Definition samples_every (g b : option Z) (t : Z) : Prop :=
  (exists x, g = Some x /\ x <> 0 /\ t = x) \/ ((g = None \/ g = Some 0) /\ b = Some t).
