(** What a VEN makes of the payload of an answer to its poll: client.py:1262-1311
    (_poll) and the methods that it calls, as far as they read the payload.

    A payload is what the parser has made of the message (Model/Normalize).
    What is sent and what is remembered is the result; the sending itself is
    in Model/ClientRequest.v, the scheduling of reports in Model/Cron.v and
    Model/Reporting.v, and what the user's handlers do is an argument.
    Simplifications: the values of Python that are equal across types
    (1 == True == 1.0) are kept apart except where it is said; logging is left
    out. *)
From Coq Require Import ZArith String List Bool.
From Verif.Base Require Import Result Dict PyStr.
From Verif.Model Require Import DateTime Server Normalize.
From Verif.Model Require ClientEvents VtnService.
Import ListNotations.
Local Open Scope string_scope.
Local Open Scope Z_scope.

(** v[k] *)
Definition item (k : string) (v : val) : result val :=
  match v with VDict d => match vget k d with Some x => Ok x | None => Raise KeyError end | _ => Raise TypeError end.
Definition elements (v : val) : result (list val) := match v with VList l => Ok l | _ => Raise TypeError end.
Definition same (a b : val) : bool := if VtnService.val_eq_dec a b then true else false.
(** s in v *)
Definition within (s : string) (v : val) : result bool :=
  match v with
  | VStr t => Ok (contains s t)
  | VList l => Ok (existsb (same (VStr s)) l)
  | VDict d => Ok (vmem s d)
  | _ => Raise TypeError
  end.

(** One of the report descriptions that the VEN offers: its id, the description
    and unit of its measurement (None for one without), and the bounds of its
    sampling rate. *)
Record offered := mk_offered { o_id : val; o_measurement : option (val * val); o_min : Z; o_max : Z }.

(** What becomes of one request for a report. *)
Inductive plan :=
| Refused                                                           (* lines 731-733 *)
| Unoffered (request : val)                                         (* lines 742-753: remembered without a job *)
| Repeated (request : val) (r_ids : list val) (interval : Z)        (* lines 801-813 *)
| Later (request : val) (r_ids : list val) (time : val)             (* lines 825-826 *)
| Once (request : val) (r_ids : list val).                          (* lines 827-828 *)

(** An answer to an event: its id, its modification number, what is answered. *)
Record reply := mk_reply { r_event : val; r_modification : val; r_opt : val; r_code : Z }.

Inductive reaction :=
| Quiet                                                             (* nothing is sent *)
| Reregisters                                                       (* lines 1272-1275 *)
| Responds (caught : option exn) (request : val) (replies : list reply)   (* lines 1185-1231 *)
| Creates (code : Z) (plans : list plan) (pending : list val) (request : val)  (* lines 830-843 *)
| Declines (request : val)                                          (* lines 1288-1299 *)
| Cancels (report request : val) (follows : bool)                   (* lines 951-972 *)
| Missing (report : val)                                            (* line 974: logged *)
| Deregisters (request : val)                                       (* lines 1041-1062 *)
| Mistaken (request : val).                                         (* lines 1029-1039 *)

(** A VEN: the reports that it offers (self.reports), the ids of the reports that
    were requested (self.report_requests), its registration, what its handlers
    or its memory say to an event (id, modification number, event), and whether
    an active period that begins at a time and is so long is over. *)
Record ven := mk_ven {
  v_reports : val -> option (list offered);
  v_requests : list val;
  v_registration : val;
  v_ask : val -> val -> val -> result val;
  v_over : datetime -> Z -> result bool }.

Section React.
Variable v : ven.

(** ** Events *)
(** utils.py:622-637 determine_event_status(active_period) == 'completed'.
    The time of an active period has tzinfo, or it is no time. *)
Definition completed (period : val) : result bool :=
  bind (item "dtstart" period) (fun t => match t with
    | VTime t => bind (item "duration" period) (fun d => match d with VDur d => v_over v t d | _ => Raise TypeError end)
    | _ => Raise AttributeError
    end).

(** Lines 1155-1183: one round of the first loop.  The VEN's memory of events is
    in Model/ClientEvents.v; here [v_ask] is what comes of it. *)
Definition decide (event : val) : result val :=
  bind (item "event_descriptor" event) (fun de =>
  bind (item "event_id" de) (fun id =>
  bind (item "event_status" de) (fun _ =>
  bind (item "modification_number" de) (fun n => v_ask v id n event)))).
Definition a_choice (o : val) : bool := same o (VStr "optIn") || same o (VStr "optOut").
(** Lines 1184-1188 *)
Definition checked (event o : val) : result val :=
  if a_choice o then Ok o
  else bind (item "response_required" event) (fun r => Ok (if same r (VStr "always") then VStr "optOut" else o)).
(** Lines 1148-1151.  Raising a number is a TypeError. *)
Definition vtn_checked (message : val) : result unit :=
  bind (item "vtn_id" message) (fun i => match i with VStr s => if ClientEvents.islower s then Raise TypeError else Ok tt | _ => Raise AttributeError end).
Fixpoint both (f : val -> val -> result val) (es os : list val) : result (list val) :=
  match es, os with
  | e :: es, o :: os => bind (f e o) (fun x => bind (both f es os) (fun xs => Ok (x :: xs)))
  | _, _ => Ok []
  end.
(** Lines 1147-1192 *)
Definition results (message : val) (events : list val) : option exn * list val :=
  match bind (vtn_checked message) (fun _ => bind (mapM decide events) (both checked events)) with
  | Ok os => (None, os)
  | Raise e => (Some e, map (fun _ => VStr "optOut") events)
  end.
(** Lines 1212-1216: the code for the signals *)
Fixpoint signal_code (signals : list val) : result Z :=
  match signals with
  | [] => Ok 200
  | s :: r => bind (item "signal_name" s) (fun n => if existsb (fun x => same n (VStr x)) SIGNAL_NAME_values then signal_code r else Ok 460)
  end.
(** Lines 1206-1224: one round of the second loop *)
Definition reply_to (message event o : val) : result (list reply) :=
  bind (item "response_required" event) (fun rq =>
  if same rq (VStr "always") then
    bind (item "active_period" event) (fun p =>
    bind (completed p) (fun over =>
    if over then Ok []
    else
      bind (item "event_signals" event) (fun s =>
      bind (match s with VList l => Ok l | s => bind (item "event_signals" s) elements end) (fun signals =>
      bind (signal_code signals) (fun code =>
      bind (item "request_id" message) (fun _ =>
      bind (item "event_descriptor" event) (fun de =>
      bind (item "modification_number" de) (fun n =>
      bind (item "event_id" de) (fun id => Ok [mk_reply id n o code])))))))))
  else Ok []).
Fixpoint replies (message : val) (es os : list val) : result (list reply) :=
  match es, os with
  | e :: es, o :: os => bind (reply_to message e o) (fun a => bind (replies message es os) (fun b => Ok (a ++ b)%list))
  | _, _ => Ok []
  end.
(** Lines 1144-1235 _on_event *)
Definition on_event (message : val) : result reaction :=
  bind (item "events" message) (fun es => bind (elements es) (fun events =>
  let (caught, os) := results message events in
  bind (replies message events os) (fun rs =>
  match rs with
  | [] => Ok Quiet
  | _ => bind (item "request_id" message) (fun q => Ok (Responds caught q rs))
  end))).

(** ** Reports *)
(** Lines 762-777: the measurement, which is only looked at where the payload
    has a member of that name. *)
Definition fits (o : offered) (payload : val) : result bool :=
  bind (within "measurement" payload) (fun b => if negb b then Ok true else
  bind (item "measurement" payload) (fun m =>
  bind (item "description" m) (fun d =>
  match o_measurement o with
  | None => Raise AttributeError
  | Some (d', u') => if negb (same d d') then Ok false else bind (item "unit" m) (fun u => Ok (same u u'))
  end))).
(** Lines 756-799: one round of the inner loop; the state is [single], the ids
    and the granularity. *)
Definition collect (os : list offered) (st : bool * list val * val) (payload : val) : result (bool * list val * val) :=
  let '(single, ids, granularity) := st in
  bind (item "r_id" payload) (fun r =>
  match find (fun o => same (o_id o) r) os with
  | None => Ok st
  | Some o => bind (fits o payload) (fun ok => if negb ok then Ok st else
      match granularity with
      | VNone => Ok (single, (ids ++ [r])%list, VDur (o_max o))
      | VDur 0 => Ok (true, (ids ++ [r])%list, granularity)
      | VDur g => if (o_min o <=? g) && (g <=? o_max o) then Ok (single, (ids ++ [r])%list, granularity) else Ok st
      | _ => Raise TypeError
      end)
  end).
(** Lines 728-828: one round of the outer loop; the state is the code of the
    answer, [single], the ids, and the plans so far. *)
Definition request_one (st : Z * bool * list val * list plan) (request : val) : result (Z * bool * list val * list plan) :=
  let '(code, single, ids, plans) := st in
  bind (item "report_specifier" request) (fun spec =>
  bind (item "specifier_payloads" spec) (fun ps =>
  bind (elements ps) (fun payloads =>
  bind (match payloads with [] => Raise IndexError | p :: _ => item "r_id" p end) (fun r =>
  bind (item "report_specifier_id" spec) (fun sid =>
  bind (within "INVALID" sid) (fun bad =>
  if bad || match r with VStr s => contains "INVALID" s | _ => false end then Ok (452, single, ids, (plans ++ [Refused])%list)
  else
    bind (item "report_request_id" request) (fun id =>
    bind (match spec with VDict d => Ok (match vget "report_back_duration" d with Some x => x | None => VNone end) | _ => Raise AttributeError end) (fun back =>
    bind (item "granularity" spec) (fun granularity =>
    match v_reports v sid with
    | None => Ok (code, single, ids, (plans ++ [Unoffered id])%list)
    | Some os =>
      bind (foldM (collect os) payloads (single, ids, granularity)) (fun '(single, ids, granularity) =>
      bind (if single then Ok None else match back with VDur b => Ok (if 0 <? b then Some b else None) | _ => Raise AttributeError end) (fun every =>
      match every with
      | Some b => Ok (code, single, ids, (plans ++ [Repeated id ids (match granularity with VDur 0 | VNone => b | VDur g => g | _ => b end)])%list)
      | None =>
        bind (within "report_interval" spec) (fun later =>
        if later then bind (item "report_interval" spec) (fun i => bind (item "dtstart" i) (fun t => Ok (code, single, ids, (plans ++ [Later id ids t])%list)))
        else Ok (code, single, ids, (plans ++ [Once id ids])%list))
      end))
    end))))))))).
(** Lines 717-845 create_report *)
Definition create_report (payload : val) : result reaction :=
  bind (item "report_requests" payload) (fun rs =>
  bind (elements rs) (fun requests =>
  bind (foldM request_one requests (200, false, [], [])) (fun '(code, _, _, plans) =>
  bind (mapM (item "report_request_id") requests) (fun pending =>
  bind (within "request_id" payload) (fun own =>
  bind (if own then item "request_id" payload else bind (item "response" payload) (item "request_id")) (fun q =>
  Ok (Creates code plans pending q))))))).

(** Lines 932-974 cancel_report.  report_to_follow == True also holds for 1. *)
Definition cancel_report (payload : val) : result reaction :=
  bind (item "report_request_id" payload) (fun id =>
  if existsb (same id) (v_requests v) then
    bind (item "request_id" payload) (fun q =>
    bind (item "report_to_follow" payload) (fun f => Ok (Cancels id q (same f (VBool true) || same f (VInt 1)))))
  else Ok (Missing id)).

(** Lines 1024-1062 on_cancel_party_registration *)
Definition cancel_registration (payload : val) : result reaction :=
  match v_registration v with
  | VNone => Ok Quiet
  | own =>
    bind (within "registration_id" payload) (fun named =>
    if negb named then Ok Quiet
    else bind (item "registration_id" payload) (fun id =>
         bind (item "request_id" payload) (fun q => Ok (if same own id then Deregisters q else Mistaken q))))
  end.

(** ** Lines 1262-1311 _poll, from the answer on *)
Definition some_events (payload : vdict) : result bool :=
  match vget "events" payload with
  | None => Ok false
  | Some (VList l) => Ok (negb (Nat.eqb (length l) 0))
  | Some (VDict d) => Ok (negb (Nat.eqb (length d) 0))
  | Some (VStr s) => Ok (negb (String.eqb s ""))
  | Some _ => Raise TypeError
  end.
Definition react (t : string) (payload : vdict) : result reaction :=
  let p := VDict payload in
  if String.eqb t "oadrResponse" then Ok Quiet
  else if String.eqb t "oadrRequestReregistration" then Ok Reregisters
  else if String.eqb t "oadrDistributeEvent" then bind (some_events payload) (fun b => if b then on_event p else Ok Quiet)
  else if String.eqb t "oadrUpdateReport" then Raise AttributeError    (* line 1282: there is no _on_report *)
  else if String.eqb t "oadrCreateReport" then (if vmem "report_requests" payload then create_report p else Ok Quiet)
  else if String.eqb t "oadrRegisterReport" then bind (item "request_id" p) (fun q => Ok (Declines q))
  else if String.eqb t "oadrCancelPartyRegistration" then cancel_registration p
  else if String.eqb t "oadrCancelReport" then cancel_report p
  else Ok Quiet.

(** client.py:567-573 sync_events: the events that are asked for at the start *)
Definition react_events (payload : vdict) : result reaction := bind (some_events payload) (fun b => if b then on_event (VDict payload) else Ok Quiet).
(** client.py:712-715: the requests in the answer to register_reports *)
Definition react_registered (payload : vdict) : result reaction := if vmem "report_requests" payload then create_report (VDict payload) else Ok Quiet.
End React.
