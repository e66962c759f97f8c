(** The VEN's requests: client.py:1087-1142 (_perform_request, _execute_hooks),
    client.py:368-381 (add_hook). *)
From Coq Require Import ZArith String List Bool.
From Verif.Base Require Import Result Dict.
Import ListNotations.
Local Open Scope string_scope.
Local Open Scope Z_scope.

Section Request.
(** Bodies, parsed trees and payloads are opaque; what the libraries make of
    them is an oracle.  A hook is named by a number and [behave] says how each
    call of it ends. *)
Variables Body Tree Payload : Type.

Inductive hook_arg := HABody (b : Body) | HAMessage (t : string) (p : Payload).

Record oracles := {
  behave : nat -> hook_arg -> result unit;
  post : Body -> result (Z * Body);          (* aiohttp: HTTP status and body, or an exception *)
  body_empty : Body -> bool;                 (* len(content) == 0 *)
  decodes : Body -> bool;                    (* content is UTF-8 *)
  validate_schema : Body -> result Tree;
  validate_signature : Tree -> result unit;  (* validate_xml_signature(tree, cert_fingerprint=...) *)
  parse : Body -> result (string * Payload);
  response_code : Payload -> option Z;       (* payload['response']['response_code'] if present *)
  has_description : Payload -> bool          (* 'response_description' in payload['response'] *)
}.

Inductive effect := EHook (point : string) (id : nat) (arg : hook_arg) | EPost (b : Body) | ESchema (b : Body) | ESignature (t : Tree) | EParse (b : Body).

Definition registry := dict string (list nat).

(** client.py:126-130 *)
Definition client_hooks_initial : registry :=
  [("before_send_xml", []); ("after_receive_xml", []); ("before_schema_validation", []);
   ("before_parse_xml", []); ("after_parse_xml", [])].

(** client.py:378-381 add_hook *)
Definition add_hook (r : registry) (hook_name : string) (handler : nat) : result registry :=
  match get String.eqb hook_name r with
  | None => Raise ValueError
  | Some hs => Ok (set String.eqb hook_name (hs ++ [handler])%list r)
  end.

(** client.py:1136-1142 _execute_hooks: KeyError for an unknown point;
    exceptions of hooks are logged and dropped. *)
Fixpoint run_hooks (o : oracles) (point : string) (arg : hook_arg) (hs : list nat) : list effect :=
  match hs with
  | [] => []
  | h :: r => match behave o h arg with
              | Ok _ => EHook point h arg :: run_hooks o point arg r
              | Raise _ => EHook point h arg :: run_hooks o point arg r
              end
  end.

Definition execute_hooks (o : oracles) (r : registry) (point : string) (arg : hook_arg) : list effect * result unit :=
  match get String.eqb point r with
  | None => ([], Raise KeyError)
  | Some hs => (run_hooks o point arg hs, Ok tt)
  end.

(** What _perform_request gives back: [None] (empty answer), [(None, {})]
    (failure), or a message. *)
Inductive reply := RNothing | RFailed | RMessage (t : string) (p : Payload).

(** A computation with effects. *)
Definition comp (A : Type) : Type := list effect * result A.
Definition ret {A} (a : A) : comp A := ([], Ok a).
Definition tell (e : effect) : comp unit := ([e], Ok tt).
Definition lift {A} (r : result A) : comp A := ([], r).
Definition cbind {A B} (c : comp A) (f : A -> comp B) : comp B :=
  match c with
  | (t, Ok a) => let '(t', r) := f a in (t ++ t', r)%list
  | (t, Raise e) => (t, Raise e)
  end.
Notation "'do' x '<-' e ';' f" := (cbind e (fun x => f)) (at level 200, x pattern, e at level 100, f at level 200).

(** utils.ensure_str(bytes) raises UnicodeDecodeError, a ValueError. *)
Definition ensure_str (o : oracles) (b : Body) : comp Body :=
  if decodes o b then ret b else lift (Raise ValueError).

(** try: ... except Exception: return fallback *)
Definition catch_all {A} (c : comp (A + reply)) : comp (A + reply) :=
  match c with
  | (t, Ok a) => (t, Ok a)
  | (t, Raise _) => (t, Ok (inr RFailed))
  end.

(** client.py:1087-1134 _perform_request.  The session is taken to exist
    (_ensure_client_session); [signed] says whether self.vtn_fingerprint is
    set.  The handlers at 1102-1109 and 1118-1130 all return (None, {}), so
    they are one [catch_all] each. *)
Definition perform_request (o : oracles) (r : registry) (signed : bool) (message : Body) : comp reply :=
  do step1 <- catch_all (
    do m <- ensure_str o message;
    do _ <- execute_hooks o r "before_send_xml" (HABody m);
    do _ <- tell (EPost message);
    do (status, content) <- lift (post o message);
    do c <- ensure_str o content;
    do _ <- execute_hooks o r "after_receive_xml" (HABody c);
    if status =? 200 then ret (inl content) else ret (inr RFailed));
  match step1 with
  | inr reply => ret reply
  | inl content =>
    if body_empty o content then ret RNothing
    else
      do step2 <- catch_all (
        do c <- ensure_str o content;
        do _ <- execute_hooks o r "before_schema_validation" (HABody c);
        do _ <- tell (ESchema content);
        do tree <- lift (validate_schema o content);
        do _ <- (if signed then do _ <- tell (ESignature tree); lift (validate_signature o tree) else ret tt);
        do c <- ensure_str o content;
        do _ <- execute_hooks o r "before_parse_xml" (HABody c);
        do _ <- tell (EParse content);
        do (message_type, message_payload) <- lift (parse o content);
        do _ <- execute_hooks o r "after_parse_xml" (HAMessage message_type message_payload);
        ret (inl (message_type, message_payload)));
      match step2 with
      | inr reply => ret reply
      | inl (t, p) =>
        match response_code o p with
        | Some code => if code =? 200 then ret (RMessage t p)
                       else if has_description o p then ret (RMessage t p) else lift (Raise KeyError)
        | None => ret (RMessage t p)
        end
      end
  end.
End Request.
