(** The VTN's request pipeline: vtn_service.py:34-210 (VTNService) and
    messaging.py:101-172 (validate_xml_signature, authenticate_message).

    Libraries and user code are oracles: what the XML schema, the parser, the
    signature verification, the replay check (Model/Replay.v), the templates,
    hooks, lookups and message handlers do is given by functions that may raise
    anything.  Simplifications: payload members that the pipeline does not look
    at are opaque; hooks.call (hooks.py:35-38) is one oracle per hook point;
    exceptions outside Exception (cancellation) do not occur. *)
From Coq Require Import ZArith String List Bool.
From Verif.Base Require Import Result Dict PyStr.
From Verif.Model Require Import DateTime Normalize.
Import ListNotations.
Local Open Scope string_scope.
Local Open Scope Z_scope.

(** Python's equality of values, as far as types agree. *)
Definition val_eq_dec : forall a b : val, {a = b} + {a <> b}.
Proof.
  assert (T : forall a b : datetime, {a = b} + {a <> b}) by (decide equality; apply Z.eq_dec).
  fix IH 1. intros [|x|x|x|x|x|x|l|d] [|y|y|y|y|y|y|l'|d']; try (right; discriminate).
  - now left.
  - destruct (Bool.bool_dec x y); [left|right]; congruence.
  - destruct (Z.eq_dec x y); [left|right]; congruence.
  - destruct (string_dec x y); [left|right]; congruence.
  - destruct (string_dec x y); [left|right]; congruence.
  - destruct (T x y); [left|right]; congruence.
  - destruct (Z.eq_dec x y); [left|right]; congruence.
  - assert (L : {l = l'} + {l <> l'}); [|destruct L; [left|right]; congruence].
    revert l'. induction l as [|a l IHl]; intros [|b l']; [now left|now right|now right|]. destruct (IH a b) as [->|N]; [|right; congruence]. destruct (IHl l') as [->|N]; [now left|right; congruence].
  - assert (L : {d = d'} + {d <> d'}); [|destruct L; [left|right]; congruence].
    revert d'. induction d as [|[k a] d IHd]; intros [|[k' b] d']; [now left|now right|now right|]. destruct (string_dec k k') as [->|N]; [|right; congruence].
    destruct (IH a b) as [->|N]; [|right; congruence]. destruct (IHd d') as [->|N]; [now left|right; congruence].
Defined.

(** A member of a payload: a scalar, the 'response' dict, or something else:
    given as such, or by a number where it does not matter what it is. *)
Inductive member :=
| Val (v : scalar)
| Resp (code : Z) (description : string) (request_id : option member)
| Other (v : val)
| Opaque (n : nat).
Fixpoint member_eqb (a b : member) : bool :=
  match a, b with
  | Val x, Val y => scalar_eqb x y
  | Resp c d r, Resp c' d' r' => (c =? c') && String.eqb d d' && match r, r' with Some x, Some y => member_eqb x y | None, None => true | _, _ => false end
  | Other v, Other v' => if val_eq_dec v v' then true else false
  | Opaque n, Opaque n' => Nat.eqb n n'
  | _, _ => false
  end.
Definition payload := dict string member.
Definition pget (k : string) (p : payload) : option member := get String.eqb k p.
Definition pset (k : string) (v : member) (p : payload) : payload := set String.eqb k v p.
Definition none := Val SNone.
(** payload.get(k): None when missing *)
Definition pget_none (k : string) (p : payload) : member := match pget k p with Some v => v | None => none end.
(** bool(v) *)
Definition truthy (v : scalar) : bool :=
  match v with SNone | SStr EmptyString | SInt 0 | SBool false | SDec 0 _ => false | _ => true end.
Definition mtruthy (m : member) : bool := match m with Val v => truthy v | Other v => vtruthy v | _ => true end.

Record request := mk_rq {
  rq_content_type : string;               (* '' when missing *)
  rq_body : result string;                (* await request.read() *)
  rq_secure : bool;
  rq_cert : result (option string) }.     (* get_cert_fingerprint_from_request *)

(** What a message handler returns. *)
Inductive hpayload := HDict (p : payload) | HNoPayload | HNotADict.
Inductive hresult := HNone | HPair (t : string) (p : hpayload).

Record world := mk_w {
  w_schema : string -> result unit;                 (* validate_xml_schema *)
  w_parse : string -> result (string * payload);    (* parse_message *)
  w_signer : string -> result string;               (* fingerprint of the certificate in the message *)
  w_verify : string -> result unit;                 (* VERIFIER.verify *)
  w_replay : string -> result unit;                 (* _verify_replay_protect *)
  w_render : string -> payload -> result string;    (* create_message, after the preflight check *)
  w_hook : string -> result unit;
  w_id : string }.                                  (* generate_id *)

(** A service with its settings.  A lookup may give something else each time;
    the number is that of the call within this request. *)
Record config := mk_cfg {
  c_vtn : scalar;
  c_ven_lookup : option (nat -> member -> result (option (dict string scalar)));
  c_fp_lookup : option (member -> result scalar);
  c_verify : bool;
  c_types : list string;                            (* self.handlers *)
  c_handle : string -> payload -> result hresult }.

(** What happens: a handler is called. *)
Inductive effect := Handled (t : string) (p : payload).

(** A computation: its effects, the value of the variable message_type
    (unbound at first), and how it ended. *)
Record comp (A : Type) := mk_comp { effects : list effect; mtype : option string; ended : result A }.
Arguments mk_comp {A}. Arguments effects {A}. Arguments mtype {A}. Arguments ended {A}.
Definition lift {A} (r : result A) : comp A := mk_comp [] None r.
Definition cbind {A B} (c : comp A) (f : A -> comp B) : comp B :=
  match ended c with
  | Ok a => let d := f a in mk_comp (effects c ++ effects d) (match mtype d with Some t => Some t | None => mtype c end) (ended d)
  | Raise e => mk_comp (effects c) (mtype c) (Raise e)
  end.
Notation "'do' x '<-' e ';' f" := (cbind e (fun x => f)) (at level 200, x pattern, e at level 100, f at level 200).

Section Service.
Context (w : world) (cfg : config).

(** messaging.py:120-172, the description texts left out. *)
Definition unauthorised {A} : result A := Raise (ProtocolError 463 "").

(** messaging.py:101-113 without a cert_fingerprint: the certificate is
    extracted again (which succeeded before). *)
Definition validate_signature (body : string) : result unit :=
  bind (w_verify w body) (fun _ => w_replay w body).

Definition catch_value {A} (r : result A) : result A :=
  match r with Raise ValueError => unauthorised | r => r end.

(** [n] is the number of calls of ven_lookup so far. *)
Definition authenticate (n : nat) (use_fp : bool) (rq : request) (body : string) (p : payload) : result unit :=
  bind (rq_cert rq) (fun fp =>
  match fp with
  | None => unauthorised
  | Some connection =>
    bind (catch_value (
      match use_fp, c_fp_lookup cfg, c_ven_lookup cfg with
      | true, Some lookup, _ => bind (lookup (pget_none "ven_id" p)) (fun e => if truthy e then Ok e else Raise ValueError)
      | false, _, Some lookup => bind (lookup n (pget_none "ven_id" p)) (fun info =>
          match info with
          | Some ((_ :: _) as i) => Ok (match get String.eqb "fingerprint" i with Some f => f | None => SNone end)
          | _ => Raise ValueError
          end)
      | _, _, _ => Raise UnboundLocalError
      end)) (fun expected =>
    if scalar_eqb expected SNone then unauthorised
    else if negb (scalar_eqb (SStr connection) expected) then unauthorised
    else if c_verify cfg then
      bind (w_signer w body) (fun signer =>
      if negb (scalar_eqb (SStr signer) expected) then unauthorised
      else catch_value (validate_signature body))
    else Ok tt)
  end).

(** vtn_service.py:201-210 error_response *)
Definition error_response (t : string) (code : Z) (description : string) : string * payload :=
  (if String.eqb t "oadrRequestEvent" then "oadrDistributeEvent" else "oadrResponse",
   [("response", Resp code description None)]).

(** vtn_service.py:166-199 handle_message *)
Definition complete (t : string) (message : payload) (r : hresult) : result (string * payload) :=
  bind (match r with
        | HNone => Ok ("oadrResponse", [])
        | HPair t' HNoPayload => Ok (t', [])
        | HPair t' (HDict p) => Ok (t', p)
        | HPair t' HNotADict => Raise TypeError
        end) (fun tp =>
  let '(t', p) := tp in
  let p := pset "vtn_id" (Val (c_vtn cfg)) p in
  let p := match pget "ven_id" message with
           | Some v => if mtruthy (pget_none "ven_id" p) then p else pset "ven_id" v p
           | None => p
           end in
  let p := pset "response" (Resp 200 "OK" (Some (pget_none "request_id" message))) p in
  Ok (t', pset "request_id" (Val (SStr (w_id w))) p)).
Definition not_supported := "A message of this type should not be sent to this endpoint".
Definition handle_message (t : string) (message : payload) : comp (string * payload) :=
  do _ <- lift (w_hook w "before_handle");
  do r <- (if existsb (String.eqb t) (c_types cfg) then
             do h <- mk_comp [Handled t message] None (c_handle cfg t message);
             lift (complete t message h)
           else lift (Ok (error_response "oadrResponse" 459 not_supported)));
  do _ <- lift (w_hook w "after_handle");
  lift (Ok r).

(** vtn_service.py:51-55.  HTTPError takes no keyword response_code, so line
    53 raises TypeError. *)
Definition check_content (rq : request) : result unit :=
  if startswith "application/xml" (lower (rq_content_type rq)) then Ok tt else Raise TypeError.
(** Lines 68-72 *)
Definition check_vtn (p : payload) : result unit :=
  match pget "vtn_id" p with
  | Some v => if negb (member_eqb v none) && negb (member_eqb v (Val (c_vtn cfg))) then Raise (ProtocolError 452 "") else Ok tt
  | None => Ok tt
  end.
(** Lines 75-79; the number of calls made. *)
Definition check_ven (t : string) (p : payload) : result nat :=
  if String.eqb t "oadrCreatePartyRegistration" || String.eqb t "oadrQueryRegistration" then Ok 0%nat
  else match pget "ven_id" p, c_ven_lookup cfg with
       | Some v, Some lookup =>
         bind (lookup 0%nat v) (fun info =>
         match match info with None => None | Some i => get String.eqb "registration_id" i end with
         | None | Some SNone => Raise (RequestReregistration (match v with Val x => x | _ => SNone end))
         | Some _ => Ok 1%nat
         end)
       | _, _ => Ok 0%nat
       end.
(** Lines 82-94 *)
Definition check_sender (n : nat) (rq : request) (body : string) (p : payload) : result unit :=
  match pget "ven_id" p with
  | Some _ => if rq_secure rq then
                match c_fp_lookup cfg, c_ven_lookup cfg with
                | Some _, _ => authenticate n true rq body p
                | None, Some _ => authenticate n false rq body p
                | None, None => Ok tt       (* an error is logged *)
                end
              else Ok tt
  | None => Ok tt
  end.
(** Lines 99-100 *)
Definition add_fingerprint (rq : request) (t : string) (p : payload) : result payload :=
  if rq_secure rq && String.eqb t "oadrCreatePartyRegistration"
  then bind (rq_cert rq) (fun fp => Ok (pset "fingerprint" (match fp with Some f => Val (SStr f) | None => none end) p))
  else Ok p.
(** Lines 109-115 *)
Definition finish (p q : payload) : payload :=
  let q := match pget "response" q with Some _ => q | None => pset "response" (Resp 200 "OK" (Some (pget_none "request_id" p))) q end in
  let q := pset "vtn_id" (Val (c_vtn cfg)) q in
  match pget "ven_id" q with Some _ => q | None => pset "ven_id" (pget_none "ven_id" p) q end.
(** vtn_service.py:49-115, the try block; message_type is bound at line 63. *)
Definition try_block (rq : request) : comp (string * payload) :=
  do _ <- lift (check_content rq);
  do body <- lift (rq_body rq);
  do _ <- lift (w_hook w "before_parse");
  do _ <- lift (w_schema w body);
  do tp <- lift (w_parse w body);
  let '(t, p) := tp in
  do _ <- mk_comp [] (Some t) (if String.eqb t "oadrResponse" then Raise SendEmptyHTTPResponse else Ok tt);
  do _ <- lift (check_vtn p);
  do n <- lift (check_ven t p);
  do _ <- lift (check_sender n rq body p);
  do p <- lift (add_fingerprint rq t p);
  do r <- handle_message t p;
  lift (Ok (fst r, finish p (snd r))).

(** messaging.py:65-88 create_message: preflight.py:68-72 needs the events of
    an oadrDistributeEvent and 45-46 the reports of an oadrRegisterReport. *)
Definition create_message (t : string) (p : payload) : result string :=
  if String.eqb t "oadrDistributeEvent" && negb (mem String.eqb "events" p) then Raise KeyError
  else if String.eqb t "oadrRegisterReport" && negb (mem String.eqb "reports" p) then Raise KeyError
  else w_render w t p.

(** The answer: HTTP status and what the body is. *)
Inductive body := Message (t : string) (p : payload) (text : string) | Text | NoText.
Inductive reply := Reply (status : Z) (b : body) | Unhandled (e : exn).

Definition send (t : string) (p : payload) : reply :=
  match create_message t p with Ok text => Reply 200 (Message t p text) | Raise e => Unhandled e end.

(** vtn_service.py:116-162, the except and else clauses. *)
Definition answer (t : option string) (r : result (string * payload)) : reply :=
  match r with
  | Ok (t', q) => send t' q
  | Raise (RequestReregistration v) => send "oadrRequestReregistration" [("ven_id", Val v)]
  | Raise SendEmptyHTTPResponse => Reply 200 NoText
  | Raise (ProtocolError code description) =>
    match t with
    | Some t => let '(t', q) := error_response t code description in send t' q
    | None => Unhandled UnboundLocalError
    end
  | Raise (HTTPError status) => Reply status Text
  | Raise XMLSyntaxError => Reply 400 Text
  | Raise FingerprintMismatch => Reply 403 Text
  | Raise InvalidSignature => Reply 403 Text
  | Raise _ => Reply 500 NoText
  end.

(** vtn_service.py:45-164 handler.  An exception that leaves it is answered
    by aiohttp with HTTP 500. *)
Definition handler (rq : request) : list effect * reply :=
  let c := try_block rq in
  let a := answer (mtype c) (ended c) in
  (effects c, match a with
              | Reply _ _ => match w_hook w "before_respond" with Ok _ => a | Raise e => Unhandled e end
              | Unhandled _ => a
              end).
Definition http_status (r : reply) : Z := match r with Reply s _ => s | Unhandled _ => 500 end.

End Service.
