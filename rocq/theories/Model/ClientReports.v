(** The VEN's reports: client.py:203-366 (add_report), 717-996 (create_report,
    update_report, cancel_report, _report_queue_worker). *)
From Coq Require Import ZArith String List Bool.
From Verif.Base Require Import Result Dict PyStr.
From Verif.Model Require Import Cron Measurements Preflight Text.
Import ListNotations.
Local Open Scope string_scope.
Local Open Scope Z_scope.

(** A report description (objects.py:245-254).  Measurement objects are
    shared: the description holds the address of one, None for TELEMETRY_STATUS. *)
Record cdesc := mk_cdesc {
  cd_rid : scalar; cd_meas : option nat; cd_lo : Z; cd_hi : Z; cd_resource : scalar; cd_reading : string; cd_type : string
}.
Record crep := mk_crep { cr_name : string; cr_specifier : scalar; cr_mode : string; cr_descs : list cdesc }.

(** An interval of an outgoing report, and such a report. *)
Record oint := mk_oint { oi_rid : scalar; oi_dtstart : Z; oi_value : scalar; oi_duration : option Z }.
Record outgoing := mk_outgoing { og_request : scalar; og_specifier : scalar; og_name : string; og_intervals : list oint; og_dtstart : option Z }.

(** An entry of self.report_requests.  'r_ids' refers to the list of the
    create_report call [rr_frame]: all requests of one message share it
    (client.py:727). *)
Record rr := mk_rr { rr_id : scalar; rr_specifier : scalar; rr_back : option Z; rr_frame : nat; rr_gran : option Z; rr_job : option nat }.

(** The local variables of a create_report call that outlive it: the list
    requested_r_ids, and report_request_id, to which the closure of line 821
    refers. *)
Record frame := mk_frame { fr_rids : list scalar; fr_id : scalar }.

(** Scheduled jobs: recurring (line 804) or once (line 825). *)
Inductive job := Recurring (id : scalar) (at_ : cron) | Once (frame : nat) (time : Z).

Record cstate := mk_cstate {
  cs_heap : list mdict;                        (* measurement objects; the predefined ones first *)
  cs_reports : list crep;
  cs_callbacks : dict (scalar * scalar) nat;
  cs_requests : list rr;
  cs_frames : list frame;
  cs_jobs : list (nat * job);
  cs_next_job : nat;
  cs_incomplete : dict scalar outgoing;
  cs_pending : list outgoing                   (* the queue, first in front *)
}.
Definition set_heap h s := mk_cstate h (cs_reports s) (cs_callbacks s) (cs_requests s) (cs_frames s) (cs_jobs s) (cs_next_job s) (cs_incomplete s) (cs_pending s).
Definition set_reports r s := mk_cstate (cs_heap s) r (cs_callbacks s) (cs_requests s) (cs_frames s) (cs_jobs s) (cs_next_job s) (cs_incomplete s) (cs_pending s).
Definition set_callbacks c s := mk_cstate (cs_heap s) (cs_reports s) c (cs_requests s) (cs_frames s) (cs_jobs s) (cs_next_job s) (cs_incomplete s) (cs_pending s).
Definition set_requests r s := mk_cstate (cs_heap s) (cs_reports s) (cs_callbacks s) r (cs_frames s) (cs_jobs s) (cs_next_job s) (cs_incomplete s) (cs_pending s).
Definition set_frames f s := mk_cstate (cs_heap s) (cs_reports s) (cs_callbacks s) (cs_requests s) f (cs_jobs s) (cs_next_job s) (cs_incomplete s) (cs_pending s).
Definition set_jobs j n s := mk_cstate (cs_heap s) (cs_reports s) (cs_callbacks s) (cs_requests s) (cs_frames s) j n (cs_incomplete s) (cs_pending s).
Definition set_outgoing i p s := mk_cstate (cs_heap s) (cs_reports s) (cs_callbacks s) (cs_requests s) (cs_frames s) (cs_jobs s) (cs_next_job s) i p.

Definition ckey_eqb (a b : scalar * scalar) : bool := scalar_eqb (fst a) (fst b) && scalar_eqb (snd a) (snd b).

Fixpoint update_nth {A} (n : nat) (f : A -> A) (l : list A) : list A :=
  match n, l with
  | _, [] => []
  | O, x :: r => f x :: r
  | S n, x :: r => x :: update_nth n f r
  end.

(** ** add_report: client.py:203-366 *)

(** enums.py:105-118, 121-145, 75-86 *)
Definition READING_TYPE_values : list string :=
  ["Direct Read"; "Net"; "Allocated"; "Estimated"; "Summed"; "Derived"; "Mean"; "Peak"; "Hybrid"; "Contract"; "Projected"; "x-RMS"; "x-notApplicable"].
Definition REPORT_TYPE_values : list string :=
  ["reading"; "usage"; "demand"; "setPoint"; "deltaUsage"; "deltaSetPoint"; "deltaDemand"; "baseline"; "deviation"; "avgUsage"; "avgDemand";
   "operatingState"; "upRegulationCapacityAvailable"; "downRegulationCapacityAvailable"; "regulationSetpoint"; "storedEnergy";
   "targetEnergyStorage"; "availableEnergyStorage"; "price"; "level"; "powerFactor"; "percentUsage"; "percentDemand"; "x-resourceStatus"].
Definition SI_SCALE_CODE_values : list string := ["p"; "n"; "micro"; "m"; "c"; "d"; "k"; "M"; "G"; "T"; "none"].

(** The measurement argument: None, a Measurement object, a dict, or text. *)
Inductive marg := MNone | MObject (addr : nat) | MDict (m : mdict) | MText (s : string).
(** The sampling_rate argument: None, a timedelta, or a SamplingRate. *)
Inductive sarg := RateDefault | RateDelta (d : Z) | RateGiven (lo hi : Z).

(** The arguments that matter; report_duration, report_dtstart and
    market_context are stored and not looked at. *)
Record areq := mk_areq {
  q_callback : nat;
  q_accepts : bool;    (* the callback has parameters date_from, date_to and sampling_interval *)
  q_resource : scalar;
  q_measurement : marg; q_mode : string;
  q_specifier : option string; q_rid : option string;
  q_name : string; q_reading : string; q_type : string;
  q_rate : sarg; q_scale : option string; q_unit : option string
}.

Definition nonempty (s : option string) : option string := match s with Some "" => None | x => x end.

(** Lines 281-288 *)
Definition rate_of (r : sarg) : Z * Z :=
  match r with
  | RateDefault => (10 * second_us, hour_us)
  | RateDelta d => (d, d)
  | RateGiven lo hi => (lo, hi)
  end.

(** enums.MEASUREMENTS[...]: the predefined measurements have the first
    addresses of the heap, in the order of [measurements]. *)
Fixpoint index_of_member (s : string) (l : list (string * string * bool * bool * bool)) (i : nat) : option nat :=
  match l with
  | [] => None
  | (m, _, _, _, _) :: r => if (m =? s)%string then Some i else index_of_member s r (S i)
  end.
Definition predefined_heap : list mdict := map member measurements.

Definition custom_measurement (description : string) (unit scale : option string) : mdict :=
  mk_md (Some "customUnit") (Some description) unit scale PowerNone None (Some "oadr").

(** Lines 300-319: the measurement object; None for TELEMETRY_STATUS.  Line
    307: object.PowerAttributes does not exist. *)
Definition item_base (q : areq) (heap : list mdict) : result (list mdict * option nat) :=
  if (q_name q =? "TELEMETRY_STATUS")%string then Ok (heap, None)
  else match q_measurement q with
  | MObject a => Ok (heap, Some a)
  | MDict m => bind (validate_report_measurement_dict m) (fun _ => Raise AttributeError)
  | MNone => Raise AttributeError      (* None.upper() *)
  | MText s =>
    match index_of_member (upper s) measurements 0 with
    | Some a => Ok (heap, Some a)
    | None => Ok ((heap ++ [custom_measurement s (q_unit q) (q_scale q)])%list, Some (length heap))
    end
  end.

(** Lines 321-326, for a scale in SI_SCALE_CODE (checked at line 267) *)
Definition set_md_scale x m := mk_md (md_name m) (md_description m) (md_unit m) x (md_power m) (md_pulse m) (md_ns m).
Definition apply_scale (q : areq) (heap : list mdict) (item : option nat) : result (list mdict) :=
  match item with
  | None => Ok heap
  | Some a =>
    match nth_error heap a with
    | None => Raise AttributeError
    | Some m => match md_scale m with
                | Some _ => Ok (update_nth a (set_md_scale (q_scale q)) heap)
                | None => Raise ValueError
                end
    end
  end.

Definition finds (q : areq) (r : crep) : bool :=
  (cr_name r =? q_name q)%string &&
  match nonempty (q_specifier q) with Some s => scalar_eqb (cr_specifier r) (SStr s) | None => true end.

Fixpoint find_index {A} (f : A -> bool) (l : list A) : option nat :=
  match l with
  | [] => None
  | x :: r => if f x then Some O else option_map S (find_index f r)
  end.

Definition add_desc (d : cdesc) (r : crep) : crep := mk_crep (cr_name r) (cr_specifier r) (cr_mode r) (cr_descs r ++ [d])%list.

(** client.py:203-366 add_report.  [new_specifier] and [new_rid] are what
    generate_id returns.  The result is the pair of line 366: there
    report_specifier_id is still None when an existing report was found without
    it (line 344). *)
Definition add_report (q : areq) (new_specifier new_rid : string) (st : cstate) : cstate * result (option string * string) :=
  if negb (inb (q_name q) REPORT_NAME_values) && negb (startswith "x-" (q_name q)) then (st, Raise ValueError)
  else if negb (inb (q_reading q) READING_TYPE_values) && negb (startswith "x-" (q_reading q)) then (st, Raise ValueError)
  else if negb (inb (q_type q) REPORT_TYPE_values) && negb (startswith "x-" (q_type q)) then (st, Raise ValueError)
  else if negb (match q_scale q with Some s => inb s SI_SCALE_CODE_values | None => false end) then (st, Raise ValueError)
  else if negb (inb (q_mode q) ["incremental"; "full"]) then (st, Raise ValueError)
  else if (q_mode q =? "full")%string && negb (q_accepts q) then (st, Raise TypeError)
  else
    match bind (item_base q (cs_heap st)) (fun '(heap, item) => bind (apply_scale q heap item) (fun heap => Ok (heap, item))) with
    | Raise e => (st, Raise e)
    | Ok (heap, item) =>
      match item, q_unit q with
      | None, Some _ => (st, Raise AttributeError)      (* line 329: None.unit *)
      | _, _ =>
        let '(specifier, reports, i) :=
          match find_index (finds q) (cs_reports st) with
          | Some i => (q_specifier q, cs_reports st, i)
          | None =>
            let s := match nonempty (q_specifier q) with Some s => s | None => new_specifier end in
            (Some s, (cs_reports st ++ [mk_crep (q_name q) (SStr s) (q_mode q) []])%list, length (cs_reports st))
          end in
        let r_id := match nonempty (q_rid q) with Some r => r | None => new_rid end in
        let d := mk_cdesc (SStr r_id) item (fst (rate_of (q_rate q))) (snd (rate_of (q_rate q))) (q_resource q) (q_reading q) (q_type q) in
        let key := (match nth_error reports i with Some r => cr_specifier r | None => SNone end, SStr r_id) in
        (set_callbacks (set ckey_eqb key (q_callback q) (cs_callbacks st)) (set_reports (update_nth i (add_desc d) reports) (set_heap heap st)),
         Ok (specifier, r_id))
      end
    end.

(** ** update_report: client.py:848-930 *)

(** What a report callback returns: a number, with the time at which it is
    asked for; a series of (datetime, value); or something that cannot be
    iterated over in pairs. *)
Inductive sample := Number (now : Z) (v : scalar) | Series (l : list (Z * scalar)) | NoSeries.

Definition find_request (id : scalar) (l : list rr) : option rr := find (fun r => scalar_eqb (rr_id r) id) l.
Definition find_report (id : scalar) (l : list crep) : option crep := find (fun r => scalar_eqb (cr_specifier r) id) l.
Definition find_cdesc (id : scalar) (l : list cdesc) : option cdesc := find (fun d => scalar_eqb (cd_rid d) id) l.
Definition rids_of (st : cstate) (r : rr) : list scalar := match nth_error (cs_frames st) (rr_frame r) with Some f => fr_rids f | None => [] end.

(** report_name.replace('METADATA_', '') *)
Fixpoint without (w : string) (skip : nat) (s : string) : string :=
  match s with
  | EmptyString => ""
  | String c r =>
    match skip with
    | S k => without w k r
    | O => if startswith w s then without w (String.length w - 1) r else String c (without w O r)
    end
  end.
Definition outgoing_name (n : string) : string := if contains "METADATA" n then without "METADATA_" 0 n else n.

Definition total_minimum (l : list oint) : option Z :=
  match l with [] => None | x :: r => Some (fold_left (fun m y => if oi_dtstart y <? m then oi_dtstart y else m) r (oi_dtstart x)) end.

Section Sampling.
(** How each call of a user callback (named by its number) ends.  The second
    argument is the r_id, so that it may differ from call to call. *)
Context (call : nat -> scalar -> result sample).

Definition series_of (x : sample) : result (list (Z * scalar)) :=
  match x with Number t v => Ok [(t, v)] | Series l => Ok l | NoSeries => Raise TypeError end.

(** Lines 889-908: one r_id in incremental mode; the intervals afterwards, and
    the outcome.  KeyError is caught, wherever it comes from.  [duration] is
    None or line 903's granularity; [broken] means that
    report_back_duration.total_seconds() fails on None (line 900). *)
Definition sample_one (st : cstate) (specifier r_id : scalar) (duration : option Z) (broken : bool) (l : list oint) : list oint * result unit :=
  match get ckey_eqb (specifier, r_id) (cs_callbacks st) with
  | None => (l, Ok tt)
  | Some c =>
    match bind (call c r_id) series_of with
    | Raise KeyError => (l, Ok tt)
    | Raise e => (l, Raise e)
    | Ok s =>
      if (match s with [] => false | _ => broken end) then (l, Raise AttributeError)
      else ((l ++ map (fun '(t, v) => mk_oint r_id t v duration) s)%list, Ok tt)
    end
  end.

Fixpoint sample_all (st : cstate) (specifier : scalar) (rids : list scalar) (duration : option Z) (broken : bool) (l : list oint) : list oint * result unit :=
  match rids with
  | [] => (l, Ok tt)
  | r :: rest =>
    match sample_one st specifier r duration broken l with
    | (l, Ok _) => sample_all st specifier rest duration broken l
    | (l, Raise e) => (l, Raise e)
    end
  end.

(** Lines 871-886: full mode.  The callback is asked for a period; the times
    are arguments of [call] that the model leaves out.  A number is not
    iterable here. *)
Fixpoint collect_full (st : cstate) (specifier : scalar) (rids : list scalar) (l : list oint) : list oint * result unit :=
  match rids with
  | [] => (l, Ok tt)
  | r :: rest =>
    match get ckey_eqb (specifier, r) (cs_callbacks st) with
    | None => (l, Raise KeyError)
    | Some c =>
      match bind (call c r) (fun x => match x with Series l => Ok l | _ => Raise TypeError end) with
      | Raise e => (l, Raise e)
      | Ok s => collect_full st specifier rest (l ++ map (fun '(t, v) => mk_oint r t v None) s)%list
      end
    end
  end.

(** [quotient a b] is int(a / b), a float division, on total_seconds(). *)
Context (quotient : Z -> Z -> Z).

(** Lines 872-873: the report back duration that is used. *)
Definition back_of (request : rr) (report : crep) : option Z :=
  if (cr_mode report =? "full")%string then match rr_back request with Some b => Some b | None => rr_gran request end
  else rr_back request.

(** Lines 870-909: the intervals after this sampling, and how it ended. *)
Definition collect (st : cstate) (request : rr) (report : crep) (og : outgoing) : list oint * result unit :=
  if (cr_mode report =? "full")%string then
    match back_of request report, rr_gran request with
    | Some _, Some _ => collect_full st (rr_specifier request) (rids_of st request) (og_intervals og)
    | _, _ => (og_intervals og, Raise TypeError)    (* date_to - max(...) with a None *)
    end
  else
    let usage := (og_name og =? "TELEMETRY_USAGE")%string in
    sample_all st (rr_specifier request) (rids_of st request)
      (if usage && (match rr_back request with Some 0 => true | _ => false end) then rr_gran request else None)
      (usage && (match rr_back request with None => true | _ => false end)) (og_intervals og).

(** client.py:848-930 update_report.  Taken to run without interruption: it
    is suspended only while a callback that is a coroutine waits.
    Lines 870 and 885/901: [intervals] is the list of the report in progress
    unless that is empty, so additions stay even when an exception follows. *)
Definition update_report (id : scalar) (st : cstate) : cstate * result unit :=
  match find_request id (cs_requests st) with
  | None => (st, Raise TypeError)
  | Some request =>
    match find_report (rr_specifier request) (cs_reports st) with
    | None => (st, Raise AttributeError)
    | Some report =>
      let progress := get scalar_eqb id (cs_incomplete st) in
      let og := match progress with
                | Some og => og
                | None => mk_outgoing id (cr_specifier report) (outgoing_name (cr_name report)) [] None
                end in
      match collect st request report og with
      | (l, Raise e) =>
        (match progress, og_intervals og with
         | Some og, _ :: _ => set_outgoing (set scalar_eqb id (mk_outgoing (og_request og) (og_specifier og) (og_name og) l (og_dtstart og)) (cs_incomplete st)) (cs_pending st) st
         | _, _ => st
         end, Raise e)
      | (l, Ok _) =>
        let og := mk_outgoing (og_request og) (og_specifier og) (og_name og) l (match total_minimum l with Some t => Some t | None => og_dtstart og end) in
        (* the report in progress is the same object *)
        let incomplete := match progress with Some _ => set scalar_eqb id og (cs_incomplete st) | None => cs_incomplete st end in
        let send := (set_outgoing incomplete (cs_pending st ++ [og])%list st, Ok tt) in
        if (cr_mode report =? "incremental")%string then
          match back_of request report with
          | None => send
          | Some b =>
            match rr_gran request with
            | None => (set_outgoing incomplete (cs_pending st) st, Raise AttributeError)
            | Some g =>
              if (0 <? g) && (g <? b) then
                let expected_len := Z.of_nat (length (rids_of st request)) * quotient b g in
                if Z.of_nat (length l) =? expected_len then
                  match progress with
                  | Some _ => (set_outgoing (del scalar_eqb id incomplete) (cs_pending st ++ [og])%list st, Ok tt)
                  | None => (st, Raise KeyError)        (* line 924: incomplete_reports.pop *)
                  end
                else (set_outgoing (set scalar_eqb id og incomplete) (cs_pending st) st, Ok tt)
              else send
            end
          end
        else send
      end
    end
  end.

(** ** create_report: client.py:717-841 *)
Record spayload := mk_sp { sp_rid : scalar; sp_meas : option (string * string) }.   (* description, unit *)
Record creq := mk_creq {
  cq_id : scalar; cq_specifier : scalar; cq_back : option Z; cq_gran : option Z; cq_payloads : list spayload;
  cq_at : option Z       (* report_interval.dtstart *)
}.

Definition oeqb (a b : option string) : bool :=
  match a, b with Some a, Some b => (a =? b)%string | None, None => true | _, _ => false end.

(** Lines 756-798: one specifier_payload.  The state of the loop is [single],
    [granularity] and the list of r_ids. *)
Definition check_payload (st : cstate) (report : crep) (acc : bool * option Z * list scalar) (p : spayload) : result (bool * option Z * list scalar) :=
  let '(single, gran, rids) := acc in
  match find_cdesc (sp_rid p) (cr_descs report) with
  | None => Ok acc
  | Some rd =>
    bind (match sp_meas p with
          | None => Ok true
          | Some (description, unit) =>
            match cd_meas rd with
            | None => Raise AttributeError
            | Some a =>
              match nth_error (cs_heap st) a with
              | None => Raise AttributeError
              | Some m => Ok (oeqb (Some description) (md_description m) && oeqb (Some unit) (md_unit m))
              end
            end
          end) (fun matching =>
    if negb matching then Ok acc
    else match gran with
    | Some g =>
      if g =? 0 then Ok (true, gran, (rids ++ [sp_rid p])%list)
      else if (cd_lo rd <=? g) && (g <=? cd_hi rd) then Ok (single, gran, (rids ++ [sp_rid p])%list)
      else Ok acc
    | None => Ok (single, Some (cd_hi rd), (rids ++ [sp_rid p])%list)
    end)
  end.

(** The loop with what it has appended before an exception. *)
Fixpoint check_payloads (st : cstate) (report : crep) (acc : bool * option Z * list scalar) (ps : list spayload)
  : (bool * option Z * list scalar) * result unit :=
  match ps with
  | [] => (acc, Ok tt)
  | p :: r => match check_payload st report acc p with
              | Raise e => (acc, Raise e)
              | Ok acc => check_payloads st report acc r
              end
  end.

(** Line 731: 'INVALID' in the identifiers; on a number it raises TypeError. *)
Definition mentions_INVALID (s : scalar) : result bool :=
  match s with SStr s => Ok (contains "INVALID" s) | _ => Raise TypeError end.
Definition is_invalid (q : creq) : result bool :=
  match cq_payloads q with
  | [] => Raise IndexError
  | p :: _ =>
    bind (mentions_INVALID (cq_specifier q)) (fun b =>
    if b then Ok true else match sp_rid p with SStr s => Ok (contains "INVALID" s) | _ => Ok false end)
  end.

(** Lines 729-827: one report request.  [fr] is the frame of this call;
    [single] survives from one request to the next. *)
Definition process (fr : nat) (single : bool) (q : creq) (st : cstate) : cstate * bool * result bool :=
  match is_invalid q with
  | Raise e => (st, single, Raise e)
  | Ok true => (st, single, Ok true)
  | Ok false =>
    let rids := match nth_error (cs_frames st) fr with Some f => fr_rids f | None => [] end in
    let st := set_frames (update_nth fr (fun f => mk_frame (fr_rids f) (cq_id q)) (cs_frames st)) st in
    match find_report (cq_specifier q) (cs_reports st) with
    | None =>
      (set_requests (cs_requests st ++ [mk_rr (cq_id q) (cq_specifier q) (cq_back q) fr (cq_gran q) None])%list st, single, Ok false)
    | Some report =>
      let '((single, gran, rids), outcome) := check_payloads st report (single, cq_gran q, rids) (cq_payloads q) in
      let st := set_frames (update_nth fr (fun f => mk_frame rids (fr_id f)) (cs_frames st)) st in
      match outcome with
      | Raise e => (st, single, Raise e)
      | Ok _ =>
        let store job st := set_requests (cs_requests st ++ [mk_rr (cq_id q) (cq_specifier q) (cq_back q) fr gran job])%list st in
        match (if single then Ok false else match cq_back q with Some b => Ok (0 <? b) | None => Raise AttributeError end) with
        | Raise e => (st, single, Raise e)
        | Ok true =>
          let interval := match gran with Some g => if g =? 0 then match cq_back q with Some b => b | None => 0 end else g
                                        | None => match cq_back q with Some b => b | None => 0 end end in
          if interval <? second_us then (st, single, Raise ValueError)    (* apscheduler refuses '*/0' *)
          else
            let n := cs_next_job st in
            (store (Some n) (set_jobs (cs_jobs st ++ [(n, Recurring (cq_id q) (cron_config interval false))])%list (S n) st), single, Ok false)
        | Ok false =>
          let st := store None st in
          match cq_at q with
          | Some t => (set_jobs (cs_jobs st ++ [(cs_next_job st, Once fr t)])%list (S (cs_next_job st)) st, single, Ok false)
          | None => let '(st, r) := update_report (cq_id q) st in (st, single, bind r (fun _ => Ok false))
          end
        end
      end
    end
  end.

(** The loop; the result says whether some request was invalid. *)
Fixpoint process_all (fr : nat) (single : bool) (qs : list creq) (st : cstate) (invalid : bool) : cstate * result bool :=
  match qs with
  | [] => (st, Ok invalid)
  | q :: r =>
    match process fr single q st with
    | (st, single, Ok b) => process_all fr single r st (invalid || b)
    | (st, _, Raise e) => (st, Raise e)
    end
  end.

(** client.py:717-841 create_report; the result is the oadrCreatedReport
    message: its response code (enums.py STATUS_CODES.INVALID_ID = 452) and its
    pending reports. *)
Definition create_report (qs : list creq) (st : cstate) : cstate * result (Z * list scalar) :=
  let fr := length (cs_frames st) in
  let st := set_frames (cs_frames st ++ [mk_frame [] SNone])%list st in
  let '(st, r) := process_all fr false qs st false in
  (st, bind r (fun invalid => Ok (if invalid then 452 else 200, map cq_id qs))).

(** ** A scheduled job runs: lines 801 and 821-822 *)
Definition run_job (j : job) (st : cstate) : cstate * result unit :=
  match j with
  | Recurring id _ => update_report id st
  | Once fr _ => match nth_error (cs_frames st) fr with Some f => update_report (fr_id f) st | None => (st, Raise NameError) end
  end.

(** ** cancel_report: client.py:932-973 *)

(** Before the pause of line 944: the request found, to be cancelled. *)
Definition cancel_begin (id : scalar) (st : cstate) : cstate * result (option rr) :=
  match find_request id (cs_requests st) with
  | None => (st, Ok None)
  | Some r =>
    match rids_of st r with
    | [] => (st, Ok (Some r))
    | _ => let '(st, x) := update_report id st in (st, bind x (fun _ => Ok (Some r)))
    end
  end.

Fixpoint remove_request (p : rr -> bool) (l : list rr) : list rr :=
  match l with [] => [] | x :: r => if p x then r else x :: remove_request p r end.

Definition onat_eqb (a b : option nat) : bool :=
  match a, b with Some a, Some b => Nat.eqb a b | None, None => true | _, _ => false end.
Definition oz_eqb (a b : option Z) : bool :=
  match a, b with Some a, Some b => a =? b | None, None => true | _, _ => false end.

(** dict equality of two entries; the r_ids are compared by content. *)
Definition same_request (st : cstate) (a b : rr) : bool :=
  scalar_eqb (rr_id a) (rr_id b) && scalar_eqb (rr_specifier a) (rr_specifier b) && oz_eqb (rr_back a) (rr_back b) &&
  (if list_eq_dec scalar_eq_dec (rids_of st a) (rids_of st b) then true else false) &&
  oz_eqb (rr_gran a) (rr_gran b) && onat_eqb (rr_job a) (rr_job b).

(** After the pause.  job.remove() raises when the job is gone (apscheduler's
    JobLookupError, a KeyError); payload['report_to_follow'] may be missing;
    list.remove raises ValueError when the entry is gone.  The message of line
    951-969 is the result; it is sent at the end. *)
Definition cancel_end (r : rr) (to_follow : option bool) (st : cstate) : cstate * result (scalar * bool) :=
  let removed := match rr_job r with
    | None => Ok st
    | Some n =>
      if existsb (fun j => Nat.eqb (fst j) n) (cs_jobs st)
      then Ok (set_jobs (filter (fun j => negb (Nat.eqb (fst j) n)) (cs_jobs st)) (cs_next_job st) st)
      else Raise KeyError
    end in
  match removed with
  | Raise e => (st, Raise e)
  | Ok st =>
    match to_follow with
    | None => (st, Raise KeyError)
    | Some follow =>
      let '(st, x) := if follow then update_report (rr_id r) st else (st, Ok tt) in
      match x with
      | Raise e => (st, Raise e)
      | Ok _ =>
        if existsb (same_request st r) (cs_requests st)
        then (set_requests (remove_request (same_request st r) (cs_requests st)) st, Ok (rr_id r, follow))
        else (st, Raise ValueError)
      end
    end
  end.
End Sampling.

(** ** _report_queue_worker: client.py:975-996 *)

(** What _perform_request gave back; the worker keeps it in one variable
    (line 989), so it is a pair, or None after an empty answer. *)
Inductive answer := Nothing | Pair (message_type : option string) (cancel : option scalar).

(** [creates og]: _create_message succeeds; [answers n og]: the n-th request's
    outcome.  'cancel_report' in a pair compares with its two elements: a
    message type is never 'cancel_report', and a dict is not equal to text. *)
Section Worker.
Context (creates : outgoing -> result unit) (answers : nat -> outgoing -> result answer).

(** The worker on what is in the queue: the reports sent, the cancellations
    acted upon, and whether it still runs. *)
Fixpoint worker (n : nat) (queue : list outgoing) : list outgoing * list scalar * result unit :=
  match queue with
  | [] => ([], [], Ok tt)
  | og :: r =>
    match creates og with
    | Raise e => ([], [], Raise e)
    | Ok _ =>
      match answers n og with
      | Raise _ => let '(sent, cancelled, x) := worker (S n) r in (og :: sent, cancelled, x)      (* line 990: except Exception *)
      | Ok Nothing => ([og], [], Raise TypeError)
      | Ok (Pair t _) =>
        if (match t with Some t => (t =? "cancel_report")%string | None => false end)
        then ([og], [], Raise TypeError)     (* tuple indices must be integers *)
        else let '(sent, cancelled, x) := worker (S n) r in (og :: sent, cancelled, x)
      end
    end
  end.
End Worker.
