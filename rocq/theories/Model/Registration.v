(** Registration of a VEN: registration_service.py:64-146 (VTN side) and
    client.py:132-191, 389-396, 404-529, 689-715, 1024-1062, 1262-1311 (VEN
    side), joined by templates/oadrCreatedPartyRegistration.xml. *)
From Coq Require Import ZArith String List Bool.
From Verif.Base Require Import Result Dict PyStr.
From Verif.Model Require Import VtnService.
Import ListNotations.
Local Open Scope string_scope.
Local Open Scope Z_scope.

(** ** The VTN *)

(** What the user's handler returns: None, False, something with a length
    (tuple, list, string), or something else.  The elements of a longer result
    are not needed. *)
Inductive grant := GNone | GFalse | GSeq (l : list scalar) | GOther.

(** The member 'profiles' of the answer: built from the message's profile and
    transport names.  [Opaque 0] stands for it. *)
Definition profiles := Opaque 0.

(** registration_service.py:88-116 create_party_registration.  [freq] is
    requested_poll_freq in microseconds (a timedelta is written as its number
    of microseconds); None when the server was given None.  profile_name and
    transport_name are in every message that fits the schema with the pull
    model; without them KeyError. *)
Definition poll_freq_member (freq : option Z) : member := match freq with Some f => Val (SInt f) | None => none end.
Definition create_party_registration (freq : option Z) (r : result grant) (message : payload) : result hresult :=
  let known f := match pget "transport_name" message, pget "profile_name" message with Some _, Some _ => f | _, _ => Raise KeyError end in
  bind r (fun g =>
  match g with
  | GNone | GFalse => known (Ok (HPair "oadrCreatedPartyRegistration" (HDict [("profiles", profiles); ("requested_oadr_poll_freq", poll_freq_member freq)])))
  | GSeq [v; i] => known (Ok (HPair "oadrCreatedPartyRegistration" (HDict [("ven_id", Val v); ("registration_id", Val i); ("profiles", profiles); ("requested_oadr_poll_freq", poll_freq_member freq)])))
  | GSeq _ => Ok (HPair "oadrCreatedPartyRegistration" (HDict []))
  | GOther => Raise TypeError
  end).

(** registration_service.py:70-86 query_registration with the default handler *)
Definition query_registration (freq : option Z) (message : payload) : result hresult :=
  match pget "request_id" message with
  | None => Raise KeyError
  | Some r => Ok (HPair "oadrCreatedPartyRegistration" (HDict [("request_id", r); ("profiles", profiles); ("requested_oadr_poll_freq", poll_freq_member freq)]))
  end.

(** registration_service.py:129-146 cancel_party_registration: what the user's
    handler returned; the placeholder returns None. *)
Definition cancel_party_registration_vtn (r : result hresult) : result hresult := r.
Definition on_cancel_placeholder : result hresult := Ok HNone.

(** ** The wire *)

(** How a request ends for the VEN (client.py:1087-1134 _perform_request):
    (None, {}) after any failure, None for an empty body, else the type and
    the members that are looked at.  A member is [None] when its key is
    missing. *)
Record answer := mk_an {
  an_type : string;
  an_code : option scalar;                   (* payload['response']['response_code'] *)
  an_reg : option scalar;
  an_ven : option scalar;
  an_freq : option Z }.
Inductive outcome := Failed | Empty | Answered (a : answer).

(** A message of the VTN as the VEN reads it.  [conv] is what printing and
    parsing make of a value.  An oadrCreatedPartyRegistration has elements for
    both identifiers, which are empty when there is none
    (oadrCreatedPartyRegistration.xml:8-18), and needs at least one profile:
    without one it does not fit the schema (oadr_20b.xsd:450-466) and is
    dropped. *)
Definition conv_member (conv : scalar -> scalar) (m : option member) : scalar :=
  match m with Some (Val SNone) | None => SNone | Some (Val v) => conv v | Some _ => SNone end.
Definition on_the_wire (conv : scalar -> scalar) (t : string) (p : payload) : outcome :=
  let code := match pget "response" p with Some (Resp c _ _) => Some (SInt c) | _ => None end in
  if String.eqb t "oadrCreatedPartyRegistration" then
    match pget "profiles" p with
    | None => Failed
    | Some _ => Answered (mk_an t code (Some (conv_member conv (pget "registration_id" p))) (Some (conv_member conv (pget "ven_id" p)))
                           (match pget "requested_oadr_poll_freq" p with Some (Val (SInt f)) => Some f | _ => None end))
    end
  else Answered (mk_an t code (match pget "registration_id" p with None => None | m => Some (conv_member conv m) end)
                  (match pget "ven_id" p with None => None | m => Some (conv_member conv m) end) None).

(** ** The VEN *)

(** A job of the scheduler. *)
Inductive job := JPoll (period : Z) | JStatusLog | JCleanup | JReport (n : nat).

Record ven := mk_ven {
  v_id : scalar;
  v_reg : scalar;
  v_freq : option Z;
  v_reports : option (list nat);     (* None after a cancellation *)
  v_jobs : list job;
  v_running : bool;                  (* the scheduler *)
  v_session : bool }.                (* client_session has been made *)

Definition with_reg (r : scalar) (s : ven) : ven := mk_ven (v_id s) r (v_freq s) (v_reports s) (v_jobs s) (v_running s) (v_session s).
Definition with_id (i : scalar) (s : ven) : ven := mk_ven i (v_reg s) (v_freq s) (v_reports s) (v_jobs s) (v_running s) (v_session s).
Definition with_freq (f : Z) (s : ven) : ven := mk_ven (v_id s) (v_reg s) (Some f) (v_reports s) (v_jobs s) (v_running s) (v_session s).
Definition with_jobs (j : list job) (s : ven) : ven := mk_ven (v_id s) (v_reg s) (v_freq s) (v_reports s) j (v_running s) (v_session s).
Definition with_running (b : bool) (s : ven) : ven := mk_ven (v_id s) (v_reg s) (v_freq s) (v_reports s) (v_jobs s) b (v_session s).
Definition forgotten (s : ven) : ven := mk_ven (v_id s) (v_reg s) (v_freq s) None [] (v_running s) (v_session s).
(** client.py:1316-1331 _ensure_client_session *)
Definition connected (s : ven) : ven := mk_ven (v_id s) (v_reg s) (v_freq s) (v_reports s) (v_jobs s) (v_running s) true.

(** How a coroutine ended, with the state it left. *)
Definition run_result (A : Type) := (ven * result A)%type.

(** client.py:414-479 create_party_registration, the request and its answer.
    A timedelta of ten seconds is 10000000 microseconds. *)
Definition ten_seconds := 10000000.
Definition adopt (a : answer) (s : ven) : ven :=
  let reg := match an_reg a with Some r => if truthy r then r else SNone | None => SNone end in
  let s := with_reg reg s in
  let s := match an_ven a with Some v => if truthy v then with_id v s else s | None => s end in
  if truthy reg then with_freq (match an_freq a with Some f => f | None => ten_seconds end) s else s.
Definition register (o : outcome) (s : ven) : run_result unit :=
  let s := connected s in
  match o with
  | Empty => (s, Raise TypeError)
  | Failed => (s, Ok tt)
  | Answered a =>
    match an_code a with
    | None => (s, Raise KeyError)
    | Some c => if scalar_eqb c (SInt 200) then (adopt a s, Ok tt) else (s, Ok tt)
    end
  end.

(** client.py:182-191 stop: shuts the scheduler down; AttributeError when no
    request was ever made. *)
Definition stop (s : ven) : run_result unit :=
  let s := with_running false s in (s, if v_session s then Ok tt else Raise AttributeError).

(** client.py:689-715 register_reports: its request and what create_report
    makes of the answer (client.py:717-, modelled in ClientReports.v) are an
    oracle: the report jobs that are added, or an exception. *)
Definition register_reports (o : result (list nat)) (s : ven) : run_result unit :=
  match v_reports s with
  | None => (s, Raise TypeError)
  | Some _ => match o with
              | Ok js => (with_jobs (v_jobs s ++ map JReport js) s, Ok tt)
              | Raise e => (s, Raise e)
              end
  end.

(** client.py:481-500 create_party_reregistration; [sync] is how sync_events
    ends (it does not touch the registration). *)
Definition reregister (o : outcome) (reports : result (list nat)) (sync : result unit) (s : ven) : run_result unit :=
  match register o s with
  | (s, Raise e) => (s, Raise e)
  | (s, Ok _) =>
    if negb (truthy (v_reg s)) then stop s
    else match register_reports reports s with
         | (s, Raise e) => (s, Raise e)
         | (s, Ok _) => (s, sync)
         end
  end.

(** client.py:502-529 cancel_party_registration *)
Definition cancel (o : outcome) (s : ven) : run_result unit :=
  match v_reg s with
  | SNone => (s, Ok tt)
  | _ =>
    let s := connected s in
    match o with
    | Empty => (s, Raise TypeError)
    | Failed => (s, Ok tt)
    | Answered a =>
      if String.eqb (an_type a) "oadrCanceledPartyRegistration" then
        match an_code a with
        | None => (s, Raise KeyError)
        | Some c => if scalar_eqb c (SInt 200) then (forgotten (with_reg SNone s), Ok tt) else (s, Ok tt)
        end
      else (s, Ok tt)
    end
  end.

(** client.py:1024-1062 on_cancel_party_registration; [reg] is the
    registration id of the message, [o] the answer to the VEN's own answer.
    The message has a request_id (required by the schema). *)
Definition on_cancel (reg : option scalar) (o : outcome) (s : ven) : run_result unit :=
  match v_reg s with
  | SNone => (s, Ok tt)
  | _ =>
    match reg with
    | None => (s, Ok tt)
    | Some r =>
      if scalar_eqb (v_reg s) r then
        let s := connected (forgotten s) in
        match o with Empty => (s, Raise TypeError) | _ => (with_reg SNone s, Ok tt) end
      else (connected s, match o with Empty => Raise TypeError | _ => Ok tt end)
    end
  end.

(** client.py:1262-1311 _poll.  [PRereg]: the VTN asks for re-registration (the
    answers to send_response and to the registration follow); [PCancel]: it
    cancels the registration; [POther]: anything else, which leaves the
    registration alone and may add or remove report jobs. *)
Inductive polled :=
| PNothing | PEmpty
| PRereg (o : outcome) (reports : result (list nat)) (sync : result unit)
| PCancel (reg : option scalar) (o : outcome)
| POther (keep : list bool) (added : list nat) (r : result unit).
Definition is_report (j : job) : bool := match j with JReport _ => true | _ => false end.
(** Report jobs for which [keep] says false are removed. *)
Fixpoint drop_reports (keep : list bool) (js : list job) : list job :=
  match js with
  | [] => []
  | j :: js => if is_report j then match keep with
                                   | false :: ks => drop_reports ks js
                                   | true :: ks => j :: drop_reports ks js
                                   | [] => j :: drop_reports [] js
                                   end
               else j :: drop_reports keep js
  end.
Definition poll (p : polled) (s : ven) : run_result unit :=
  let s := connected s in
  match p with
  | PNothing => (s, Ok tt)
  | PEmpty => (s, Raise TypeError)
  | PRereg o reports sync => reregister o reports sync s
  | PCancel reg o => on_cancel reg o s
  | POther keep added r => (with_jobs (drop_reports keep (v_jobs s) ++ map JReport added) s, r)
  end.

(** client.py:132-180 run.  [q] is the answer to the query.
    [sync] and [first] are the initial sync_events and _poll.
    scheduler.start() raises when it runs already (an exception of its own). *)
Definition day := 86400000000.
Definition start (s : ven) : run_result unit :=
  match v_freq s with
  | None => (s, Raise TypeError)
  | Some f =>
    let s := if f >? day then with_freq day s else s in
    let f := if f >? day then day else f in
    let s := with_jobs (v_jobs s ++ [JPoll f; JStatusLog; JCleanup]) s in
    if v_running s then (s, Raise (UserError 0)) else (with_running true s, Ok tt)
  end.
Definition run (q o : outcome) (reports : result (list nat)) (sync : result unit) (first : polled) (s : ven) : run_result unit :=
  let s := connected s in
  match q with
  | Empty => (s, Raise TypeError)
  | _ =>
    let s := match q with Answered a => match an_reg a with Some r => with_reg r s | None => s end | _ => s end in
    match register o s with
    | (s, Raise e) => (s, Raise e)
    | (s, Ok _) =>
      if negb (truthy (v_reg s)) then stop s
      else match register_reports reports s with
           | (s, Raise e) => (s, Raise e)
           | (s, Ok _) =>
             match sync with
             | Raise e => (s, Raise e)
             | Ok _ => match poll first s with
                       | (s, Raise e) => (s, Raise e)
                       | (s, Ok _) => start s
                       end
             end
           end
    end
  end.

(** client.py:76-98 __init__ *)
Definition initial (ven_id : scalar) (reports : list nat) : ven := mk_ven ven_id SNone None (Some reports) [] false false.

(** What can happen to a client, in any order.  Simplification: these calls do
    not overlap (the scheduler runs one _poll at a time, but the user may make
    calls while it waits). *)
Inductive step :=
| SRun (q o : outcome) (reports : result (list nat)) (sync : result unit) (first : polled)
| SRegister (o : outcome)
| SReregister (o : outcome) (reports : result (list nat)) (sync : result unit)
| SCancel (o : outcome)
| SPoll (p : polled)
| SStop.
Definition do_step (x : step) (s : ven) : run_result unit :=
  match x with
  | SRun q o reports sync first => run q o reports sync first s
  | SRegister o => register o s
  | SReregister o reports sync => reregister o reports sync s
  | SCancel o => cancel o s
  | SPoll p => poll p s
  | SStop => stop s
  end.
Definition do_steps (xs : list step) (s : ven) : ven := fold_left (fun s x => fst (do_step x s)) xs s.
