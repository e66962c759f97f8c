(** Vocabulary for C44-C46: what handlers answer and what the VTN then
    requests. *)
From Coq Require Import ZArith String List.
From Verif.Base Require Import Result.
From Verif.Model Require Import Reports.
Import ListNotations.
Local Open Scope string_scope.
Local Open Scope Z_scope.

(** (r_id, callable, timedelta[, timedelta]) *)
Inductive well_formed : entry -> Prop :=
| wf3 r c s : well_formed (ETuple [r; Callback c; Delta s])
| wf4 r c s b : well_formed (ETuple [r; Callback c; Delta s; Delta b]).

(** A data point that is asked for: r_id, callback, sampling interval and
    reporting interval. *)
Record demand := mk_demand { m_rid : scalar; m_callback : nat; m_sampling : Z; m_back : Z }.
Inductive demands : entry -> demand -> Prop :=
| dm3 r c s : demands (ETuple [Plain r; Callback c; Delta s]) (mk_demand r c s s)
| dm4 r c s b : demands (ETuple [Plain r; Callback c; Delta s; Delta b]) (mk_demand r c s b).

(** What a compact handler is told about a data point. *)
Definition told (ven : scalar) (status : bool) (rd : desc) (a : args) : Prop :=
  a_ven a = ven /\ a_resource a = d_resource rd /\ d_rate rd = Some (a_min a, a_max a) /\
  if status then a_measurement a = "Status" /\ a_unit a = None /\ a_scale a = None
  else exists u s, a_unit a = Some u /\ a_scale a = Some s /\ d_measurement rd = Some (a_measurement a, u, s).

Definition telemetry (status : bool) (report : offered) : Prop :=
  o_name report = if status then "METADATA_TELEMETRY_STATUS" else "METADATA_TELEMETRY_USAGE".

(** [answers h ven i report es]: asked about the i-th report, the handler
    answers with the tuples (and other things) [es], the r_id in front. *)
Inductive with_rids : list desc -> list entry -> list entry -> Prop :=
| wr_nil : with_rids [] [] []
| wr_tuple rd rds l es out : with_rids rds es out -> with_rids (rd :: rds) (ETuple l :: es) (ETuple (Plain (d_rid rd) :: l) :: out)
| wr_none rd rds es out : with_rids rds es out -> with_rids (rd :: rds) (ENone :: es) out
| wr_other rd rds es out : with_rids rds es out -> with_rids (rd :: rds) (EOther :: es) out.

Inductive answers : on_register -> scalar -> nat -> offered -> list entry -> Prop :=
| an_full f ven i report status es : telemetry status report -> f i report = Ok (ReturnsList es) -> answers (Full f) ven i report es
| an_none f ven i report status : telemetry status report -> f i report = Ok ReturnsNone -> answers (Full f) ven i report []
| an_other f ven i report status : telemetry status report -> f i report = Ok ReturnsOther -> answers (Full f) ven i report []
| an_compact f ven i report status raw es : telemetry status report -> length raw = length (o_descs report) ->
    (forall j rd e, nth_error (o_descs report) j = Some rd -> nth_error raw j = Some e -> exists a, told ven status rd a /\ f i j a = Ok e) ->
    with_rids (o_descs report) raw es -> answers (Compact f) ven i report es
| an_not h ven i report : (forall status, ~ telemetry status report) -> answers h ven i report [].

(** The first description of a data point. *)
Inductive described : list desc -> scalar -> string -> Prop :=
| ds_here rd rds : described (rd :: rds) (d_rid rd) (d_reading rd)
| ds_later rd rds r t : d_rid rd <> r -> described rds r t -> described (rd :: rds) r t.

(** [q] asks for exactly the data points [ds] of [report]. *)
Definition requests_exactly (id : string) (report : offered) (ds : list demand) (q : request) : Prop :=
  rq_id q = id /\ rq_specifier q = o_specifier report /\
  Forall2 (fun d p => fst p = m_rid d /\ described (o_descs report) (m_rid d) (snd p)) ds (rq_payloads q).

(** All answers, in order. *)
Inductive all_answers (h : on_register) (ven : scalar) : nat -> list offered -> list (list entry) -> Prop :=
| aa_nil i : all_answers h ven i [] []
| aa_cons i r rs es ess : answers h ven i r es -> all_answers h ven (S i) rs ess -> all_answers h ven i (r :: rs) (es :: ess).

(** A report whose answer can be used: nothing valid, or everything valid. *)
Definition clear (report : offered) (es : list entry) (ds : list demand) : Prop :=
  (ds = [] /\ Forall (fun e => ~ well_formed e) es) \/
  (ds <> [] /\ Forall2 demands es ds /\ Forall (fun d => exists t, described (o_descs report) (m_rid d) t) ds).

(** One request per report for which something is asked; its granularity and
    its reporting interval are those of the last data point. *)
Inductive expected (fresh : nat -> string) : nat -> list offered -> list (list demand) -> list request -> Prop :=
| ex_nil i : expected fresh i [] [] []
| ex_skip i r rs dss qs : expected fresh (S i) rs dss qs -> expected fresh i (r :: rs) ([] :: dss) qs
| ex_take i r rs ds dss q qs : ds <> [] -> requests_exactly (fresh i) r ds q ->
    (exists l d, ds = (l ++ [d])%list /\ rq_granularity q = m_sampling d /\ rq_back q = m_back d) ->
    expected fresh (S i) rs dss qs -> expected fresh i (r :: rs) (ds :: dss) (q :: qs).

(** The callback registered for a key: that of the last demand. *)
Definition registers (id : string) (ds : list demand) (key : string * scalar) (c : nat) : Prop :=
  fst key = id /\ exists l1 d l2, ds = (l1 ++ d :: l2)%list /\ m_rid d = snd key /\ m_callback d = c /\ ~ In (snd key) (map m_rid l2).

(** The pairs for one data point, in order. *)
Definition pairs_of (r : scalar) (l : list rinterval) : list (Z * scalar) :=
  map (fun ri => (ri_dtstart ri, ri_value ri)) (filter (fun ri => if scalar_eq_dec (ri_rid ri) r then true else false) l).

(** What a report delivers: for each data point that somebody asked for and
    that occurs, once, all its values. *)
Definition delivers (cbs : callbacks) (report : received) (ds : list delivery) : Prop :=
  exists rids, NoDup rids /\
    (forall r, In r rids <-> In r (map ri_rid (rc_intervals report)) /\ exists c, In ((rc_request report, r), c) cbs) /\
    Forall2 (fun r d => exists c, In ((rc_request report, r), c) cbs /\ d = Deliver c (pairs_of r (rc_intervals report))) rids ds.

(** How an offered report is remembered: as it is, but without the first nine
    characters of its name. *)
Definition remembered (r r' : offered) : Prop :=
  o_specifier r' = o_specifier r /\ o_descs r' = o_descs r /\
  ((exists a, String.length a = 9%nat /\ o_name r = (a ++ o_name r')%string) \/ (String.length (o_name r) < 9)%nat /\ o_name r' = "").
