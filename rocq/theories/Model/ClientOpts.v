(** The VEN's opts: client.py:96, 581-682 (create_opt, cancel_opt), and the
    VTN's side: service/opt_service.py:50-96, server.py:88-101.

    Each call is cut at its await: until there it runs undisturbed, and other
    calls may run before the answer comes. *)
From Coq Require Import ZArith String List Bool.
From Verif.Base Require Import Result Dict ListExtra.
From Verif.Model Require Import Objects Server Constructors.
Import ListNotations.
Local Open Scope string_scope.
Local Open Scope Z_scope.

(** objects.Opt, as far as the list of opts is concerned: the id, and all the
    rest (a number that stands for it).  Dataclasses compare by value. *)
Record opt := mk_opt { o_id : scalar; o_rest : nat }.
Definition opt_eqb (a b : opt) : bool := scalar_eqb (o_id a) (o_id b) && Nat.eqb (o_rest a) (o_rest b).

(** What _perform_request gives back (Model/ClientRequest.v): None, (None, {}),
    or a message with or without an opt_id. *)
Inductive vtn_reply := NoReply | Failure | Answered (opt_id : option scalar).

Inductive pending := PCreate (o : opt) | PCancel (o : opt).
Record state := mk_st { opts : list opt; waiting : list pending }.

(** What a call gives; [Sent]: it waits. *)
Inductive outcome := Sent | Returned (v : scalar) | Raised (e : exn).

Record create_args := mk_ca {
  ca_type : string; ca_reason : string; ca_event : option scalar; ca_availability : bool; ca_modification : option Z;
  ca_targets : option (list target); ca_mrid : option string; ca_id : option scalar }.

Inductive action :=
| Create (a : create_args) (generated : string) (now : Z) (rest : nat) (rendered : result unit)
| Cancel (id : scalar) (rendered : result unit)
| Answer (n : nat) (r : vtn_reply).      (* the answer to the n-th call that waits *)

Definition truthy_scalar (v : scalar) : bool :=
  match v with SNone | SStr EmptyString | SInt 0 | SBool false | SDec 0 _ => false | _ => true end.

(** client.py:603-636: up to the await.  [rest]: the parts of the new opt;
    [rendered]: how _create_message ends.  A falsy id is replaced. *)
Definition create_opt (st : state) (a : create_args) (generated : string) (now : Z) (rest : nat) (rendered : result unit) : state * outcome :=
  if negb (inb (ca_type a) OPT_values) then (st, Raised ValueError)
  else if negb (inb (ca_reason a) OPT_REASON_values) then (st, Raised ValueError)
  else
    let id := match ca_id a with Some i => if truthy_scalar i then i else SStr generated | None => SStr generated end in
    match make_opt now (ca_type a) (ca_reason a) (ca_event a) (ca_availability a) None (ca_modification a) (ca_targets a) None (ca_mrid a) with
    | Raise e => (st, Raised e)
    | Ok _ =>
      let o := mk_opt id rest in
      match rendered with
      | Ok _ => (mk_st (opts st ++ [o]) (waiting st ++ [PCreate o]), Sent)
      | Raise e => (mk_st (opts st ++ [o]) (waiting st), Raised e)
      end
    end.
(** client.py:636-645, after the await *)
Definition created (r : vtn_reply) : outcome :=
  match r with
  | NoReply => Raised TypeError
  | Failure | Answered None => Returned (SBool false)
  | Answered (Some v) => Returned v
  end.

(** client.py:656-671: up to the await *)
Definition cancel_opt (st : state) (id : scalar) (rendered : result unit) : state * outcome :=
  match find (fun o => scalar_eqb (o_id o) id) (opts st) with
  | None => (st, Returned (SBool false))
  | Some o => match rendered with
              | Ok _ => (mk_st (opts st) (waiting st ++ [PCancel o]), Sent)
              | Raise e => (st, Raised e)
              end
  end.
(** list.remove: the first one that is equal; ValueError *)
Fixpoint remove_first (o : opt) (l : list opt) : option (list opt) :=
  match l with
  | [] => None
  | x :: r => if opt_eqb x o then Some r else option_map (cons x) (remove_first o r)
  end.
(** client.py:671-682, after the await *)
Definition cancelled (l : list opt) (o : opt) (r : vtn_reply) : list opt * outcome :=
  match r with
  | NoReply => (l, Raised TypeError)
  | Failure | Answered None => (l, Returned (SBool false))
  | Answered (Some _) => match remove_first o l with Some l' => (l', Returned (SBool true)) | None => (l, Raised ValueError) end
  end.

Definition take {A} (n : nat) (l : list A) : option (A * list A) :=
  match nth_error l n with Some x => Some (x, firstn n l ++ skipn (S n) l)%list | None => None end.
(** [None]: no such call waits. *)
Definition step (st : state) (a : action) : option (state * outcome) :=
  match a with
  | Create args g now rest r => Some (create_opt st args g now rest r)
  | Cancel id r => Some (cancel_opt st id r)
  | Answer n r =>
    match take n (waiting st) with
    | None => None
    | Some (PCreate _, w) => Some (mk_st (opts st) w, created r)
    | Some (PCancel o, w) => let '(l, out) := cancelled (opts st) o r in Some (mk_st l w, out)
    end
  end.
(** client.py:96 *)
Definition initial : state := mk_st [] [].
Fixpoint run (st : state) (acts : list action) : option (state * list outcome) :=
  match acts with
  | [] => Some (st, [])
  | a :: r => match step st a with
              | None => None
              | Some (st', out) => match run st' r with Some (st'', outs) => Some (st'', out :: outs) | None => None end
              end
  end.

(** The VTN of openleadr: server.py:88-101 makes services for registration,
    polls, events and reports but none for opts, so a request to EiOpt is
    answered with HTTP 404, which client.py:1095-1098 turns into (None, {}). *)
Definition routed : list string := ["EiRegisterParty"; "OadrPoll"; "EiReport"; "EiEvent"].
Definition own_vtn (service : string) (handled : vtn_reply) : vtn_reply := if inb service routed then handled else Failure.
