(** The VTN's report service: service/report_service.py and the checks of
    utils.py:689-767. *)
From Coq Require Import ZArith String List Bool.
From Verif.Base Require Import Result Dict PyStr.
From Verif.Model Require Import Preflight.
Import ListNotations.
Local Open Scope string_scope.
Local Open Scope Z_scope.

(** What user code puts into a tuple: a callable, a timedelta (microseconds),
    or anything else that serves as an identifier. *)
Inductive item := Callback (c : nat) | Delta (d : Z) | Plain (s : scalar).

(** One element of what an on_register_report handler returns. *)
Inductive entry := ENone | ETuple (l : list item) | EOther.

Definition callable (x : item) : bool := match x with Callback _ => true | _ => false end.
Definition is_delta (x : item) : bool := match x with Delta _ => true | _ => false end.

(** utils.py:695-767, one element.  rrq[1] and rrq[2] exist after the check of
    the length. *)
Definition validate_entry (rrq : entry) : entry :=
  match rrq with
  | ENone => ENone
  | EOther => ENone
  | ETuple l =>
    if negb ((length l =? 3) || (length l =? 4))%nat then ENone
    else if negb (match nth_error l 1 with Some x => callable x | None => false end) then ENone
    else if negb (match nth_error l 2 with Some x => is_delta x | None => false end) then ENone
    else if (length l =? 4)%nat && negb (match nth_error l 3 with Some x => is_delta x | None => false end) then ENone
    else rrq
  end.

(** utils.py:689-767 validate_report_request_tuples.  The lists are changed in
    place; the model returns them. *)
Definition validate_report_request_tuples (l : list (option (list entry))) : list (option (list entry)) :=
  map (option_map (map validate_entry)) l.

(** A report description as the VTN received it.  [d_measurement] and [d_rate]
    are None when the key is absent. *)
Record desc := mk_desc {
  d_rid : scalar; d_reading : string; d_resource : scalar;
  d_measurement : option (string * string * string);   (* description, unit, scale *)
  d_rate : option (Z * Z)                              (* min_period, max_period *)
}.
Record offered := mk_offered { o_name : string; o_specifier : string; o_descs : list desc }.

(** The keyword arguments of a compact handler. *)
Record args := mk_args {
  a_ven : scalar; a_resource : scalar; a_measurement : string;
  a_unit : option string; a_scale : option string; a_min : Z; a_max : Z
}.

(** What a full handler returns. *)
Inductive outcome := ReturnsNone | ReturnsOther | ReturnsList (l : list entry).

(** The user's handler.  The numbers of the report and of the description are
    arguments, so that it may answer differently every time (it may also read
    a database, and so on); it may raise.  Lines 79-85: the parameter names
    decide which kind it is. *)
Inductive on_register :=
| Compact (f : nat -> nat -> args -> result entry)
| Full (f : nat -> offered -> result outcome).

Section Register.
Context (handler : on_register) (ven_id : scalar).

(** Lines 101-109 and 114-122: the compact handler is called per description. *)
Definition compact_args (status : bool) (rd : desc) : result args :=
  bind (if status then Ok ("Status", None, None)
        else match d_measurement rd with Some (m, u, s) => Ok (m, Some u, Some s) | None => Raise KeyError end) (fun '(m, u, s) =>
  match d_rate rd with
  | Some (lo, hi) => Ok (mk_args ven_id (d_resource rd) m u s lo hi)
  | None => Raise KeyError
  end).

Fixpoint call_each (f : nat -> nat -> args -> result entry) (i j : nat) (status : bool) (rds : list desc) : result (list entry) :=
  match rds with
  | [] => Ok []
  | rd :: r =>
    bind (compact_args status rd) (fun a =>
    bind (f i j a) (fun e =>
    bind (call_each f i (S j) status r) (fun es => Ok (e :: es))))
  end.

(** Lines 142-152: what is no tuple becomes None. *)
Definition only_tuples (e : entry) : entry := match e with ETuple l => ETuple l | _ => ENone end.

(** Lines 153-157: the r_id in front, what is no tuple left out. *)
Definition prepend (rds : list desc) (es : list entry) : list entry :=
  flat_map (fun '(rd, e) => match e with ETuple l => [ETuple (Plain (d_rid rd) :: l)] | _ => [] end) (combine rds es).

(** Lines 99-158 for the i-th report. *)
Definition ask (i : nat) (report : offered) : result (option (list entry)) :=
  let telemetry status :=
    match handler with
    | Compact f =>
      bind (call_each f i 0 status (o_descs report)) (fun es =>
      Ok (Some (prepend (o_descs report) (map only_tuples es))))
    | Full f =>
      bind (f i report) (fun o =>
      Ok (match o with
          | ReturnsNone => None
          | ReturnsOther => None
          | ReturnsList l => Some (map only_tuples l)
          end))
    end in
  if (o_name report =? "METADATA_TELEMETRY_STATUS")%string then telemetry true
  else if (o_name report =? "METADATA_TELEMETRY_USAGE")%string then telemetry false
  else Ok None.

(** Line 96: report_copy['report_name'][9:] *)
Definition renamed (report : offered) : offered :=
  mk_offered (registered_name (o_name report)) (o_specifier report) (o_descs report).

(** Lines 91-158: all offered reports; [reg] is registered_reports[ven_id]. *)
Fixpoint collect (i : nat) (reports : list offered) (reg : list offered) : list offered * result (list (option (list entry))) :=
  match reports with
  | [] => (reg, Ok [])
  | report :: r =>
    let reg := (reg ++ [renamed report])%list in
    match ask i report with
    | Raise e => (reg, Raise e)
    | Ok x => let '(reg, y) := collect (S i) r reg in (reg, bind y (fun l => Ok (x :: l)))
    end
  end.
End Register.

Definition callbacks : Type := dict (string * scalar) nat.
Definition key_eqb (a b : string * scalar) : bool := (fst a =? fst b)%string && scalar_eqb (snd a) (snd b).

(** An outgoing report request: objects.ReportRequest with its ReportSpecifier;
    the payloads are (r_id, reading_type). *)
Record request := mk_request {
  rq_id : string; rq_specifier : string; rq_granularity : Z; rq_back : Z; rq_payloads : list (scalar * string)
}.

(** utils.find_by(report_descriptions, 'r_id', r_id): the first description
    with this r_id (see C18). *)
Fixpoint find_desc (r_id : scalar) (rds : list desc) : option desc :=
  match rds with
  | [] => None
  | rd :: r => if scalar_eqb (d_rid rd) r_id then Some rd else find_desc r_id r
  end.

(** Lines 181-193: the loop over the tuples of one report.  len(None) raises
    TypeError, and so does None['reading_type'] when there is no such
    description.  [last] holds sampling_interval and report_interval, which
    keep the values of the last tuple. *)
Fixpoint form_payloads (id : string) (rds : list desc) (l : list entry) (cbs : callbacks) (acc : list (scalar * string)) (last : Z * Z)
  : callbacks * result (list (scalar * string) * (Z * Z)) :=
  match l with
  | [] => (cbs, Ok (acc, last))
  | ETuple [Plain r; Callback c; Delta s] :: rest =>
    match find_desc r rds with
    | Some rd => form_payloads id rds rest (set key_eqb (id, r) c cbs) (acc ++ [(r, d_reading rd)])%list (s, s)
    | None => (cbs, Raise TypeError)
    end
  | ETuple [Plain r; Callback c; Delta s; Delta b] :: rest =>
    match find_desc r rds with
    | Some rd => form_payloads id rds rest (set key_eqb (id, r) c cbs) (acc ++ [(r, d_reading rd)])%list (s, b)
    | None => (cbs, Raise TypeError)
    end
  | _ :: _ => (cbs, Raise TypeError)
  end.

Definition is_none (e : entry) : bool := match e with ENone => true | _ => false end.

(** Lines 171-207: the report requests.  generate_id is the oracle [fresh].
    Lines 161-169 only log. *)
Fixpoint form (fresh : nat -> string) (i : nat) (reports : list offered) (answers : list (option (list entry))) (cbs : callbacks)
  : callbacks * result (list request) :=
  match reports, answers with
  | report :: r, answer :: a =>
    match answer with
    | Some l =>
      if ((length l =? 0)%nat || forallb is_none l)%bool then form fresh (S i) r a cbs
      else
        match form_payloads (fresh i) (o_descs report) l cbs [] (0, 0) with
        | (cbs, Raise e) => (cbs, Raise e)
        | (cbs, Ok (payloads, (s, b))) =>
          let '(cbs, rest) := form fresh (S i) r a cbs in
          (cbs, bind rest (fun rest => Ok (mk_request (fresh i) (o_specifier report) s b payloads :: rest)))
        end
    | None => form fresh (S i) r a cbs
    end
  | _, _ => (cbs, Ok [])
  end.

Record service := mk_service {
  registered : dict scalar (list offered);
  requested : dict scalar (list request);
  report_callbacks : callbacks
}.

(** report_service.py:74-211 register_report; [reports] is payload.get('reports').
    The result is the list of report requests of the oadrRegisteredReport
    message.  registered_reports[ven_id] is created with the first report. *)
Definition register_report (fresh : nat -> string) (handler : on_register) (ven_id : scalar) (reports : option (list offered)) (st : service)
  : service * result (list request) :=
  match reports with
  | None => (st, Ok [])
  | Some reports =>
    let before := match get scalar_eqb ven_id (registered st) with Some l => l | None => [] end in
    let '(reg, answers) := collect handler ven_id 0 reports before in
    let registered' := match reports with [] => registered st | _ => set scalar_eqb ven_id reg (registered st) end in
    match answers with
    | Raise e => (mk_service registered' (requested st) (report_callbacks st), Raise e)
    | Ok answers =>
      match form fresh 0 reports (validate_report_request_tuples answers) (report_callbacks st) with
      | (cbs, Raise e) => (mk_service registered' (requested st) cbs, Raise e)
      | (cbs, Ok requests) => (mk_service registered' (set scalar_eqb ven_id requests (requested st)) cbs, Ok requests)
      end
    end
  end.

(** ** update_report: report_service.py:227-250 *)

(** An interval of a received report: report_payload.r_id (None when absent),
    dtstart and value. *)
Record rinterval := mk_rinterval { ri_rid : scalar; ri_dtstart : Z; ri_value : scalar }.
Record received := mk_received { rc_request : string; rc_intervals : list rinterval }.

(** What reaches user code. *)
Inductive delivery :=
| Deliver (c : nat) (values : list (Z * scalar))    (* line 244 *)
| Unclaimed (report : received).                    (* line 234 *)

(** utils.group_by(intervals, 'report_payload.r_id') (see C20). *)
Definition group_intervals (l : list rinterval) : dict scalar (list rinterval) :=
  fold_left (fun g ri => set scalar_eqb (ri_rid ri) ((match get scalar_eqb (ri_rid ri) g with Some x => x | None => [] end) ++ [ri])%list g) l [].

Section Update.
(** What user code does with a delivery: return, or raise. *)
Context (user : delivery -> result unit).

(** Run deliveries until one raises; the list is what was delivered. *)
Fixpoint deliver_all (l : list delivery) : list delivery * result unit :=
  match l with
  | [] => ([], Ok tt)
  | d :: r =>
    match user d with
    | Raise e => ([d], Raise e)
    | Ok _ => let '(ds, x) := deliver_all r in (d :: ds, x)
    end
  end.

(** Lines 231-246 for one report. *)
Definition deliveries (cbs : callbacks) (report : received) : list delivery :=
  match cbs with
  | [] => [Unclaimed report]
  | _ =>
    flat_map (fun '(r_id, values) =>
      match get key_eqb (rc_request report, r_id) cbs with
      | Some c => [Deliver c (map (fun ri => (ri_dtstart ri, ri_value ri)) values)]
      | None => []
      end) (group_intervals (rc_intervals report))
  end.

(** The whole message.  The callbacks do not change meanwhile: user code has
    no reference to the dictionary, and other messages that arrive while a
    callback is awaited only add entries (simplification: not interleaved). *)
Definition update_report (cbs : callbacks) (reports : list received) : list delivery * result unit :=
  deliver_all (flat_map (deliveries cbs) reports).
End Update.

(** ** created_report: report_service.py:263-292 (on_created_report always
    exists).  Lines 286-292: every requested report that was not created is
    logged; without an entry in requested_reports, KeyError. *)
Definition created_report (ven_id : scalar) (pending : list string) (created : dict scalar (list string)) (req : dict scalar (list request))
  : dict scalar (list string) * result (list request) :=
  let created := set scalar_eqb ven_id ((match get scalar_eqb ven_id created with Some l => l | None => [] end) ++ pending)%list created in
  (created,
   match get scalar_eqb ven_id req with
   | None => Raise KeyError
   | Some rqs => Ok (filter (fun rq => negb (existsb (String.eqb (rq_id rq)) (match get scalar_eqb ven_id created with Some l => l | None => [] end))) rqs)
   end).
