(** One request of a VEN and the answer of the VTN, with the texts that go over
    the wire: client.py:1087-1134 (Model/ClientRequest.v) and
    service/vtn_service.py:45-164 (Model/VtnService.v) put together, where
    create_message (Model/PreflightDict.v, Model/Jinja.v), the schema check (Model/SchemaTypes.v) and
    parse_message (Model/XmlText.v) are the real ones and no longer oracles.

    Both sides run this package.  The network delivers what is posted, and the
    answer, unchanged; encoding a text as UTF-8 and decoding it gives the same
    text.  Certificates, signatures and their verification, hooks, lookups and
    the handlers of the services remain oracles. *)
From Coq Require Import ZArith String List Bool.
From Verif.Base Require Import Result Dict PyStr.
From Verif.Model Require Import DateTime Normalize Xml XmlText SchemaTypes Jinja PreflightDict VtnService ClientRequest.
Import ListNotations.
Local Open Scope string_scope.
Local Open Scope Z_scope.

(** A value of a payload as a member and back.  [decimals] is what Python
    prints for a float, [opaque] what a number stands for. *)
Definition val_member (v : val) : member :=
  match v with
  | VNone => Val SNone
  | VBool b => Val (SBool b)
  | VInt z => Val (SInt z)
  | VStr s => Val (SStr s)
  | v => Other v
  end.
Definition received (d : vdict) : payload := map (fun kv => (fst kv, val_member (snd kv))) d.

Section Exchange.
(** What the libraries do with values that are not texts: see Model/Jinja.v,
    Model/Normalize.v and Model/Schema.v. *)
Context (other : val -> string) (num : numbers) (depth : nat) (uri : string -> bool) (foreign : xml -> bool)
        (decimals : Z -> nat -> string) (opaque : nat -> val).

Fixpoint member_val (m : member) : val :=
  match m with
  | Val SNone => VNone
  | Val (SBool b) => VBool b
  | Val (SInt z) => VInt z
  | Val (SStr s) => VStr s
  | Val (SDec mant digits) => VFloat (decimals mant digits)
  | Resp code description request_id =>
    VDict ([("response_code", VInt code); ("response_description", VStr description)]
           ++ match request_id with Some r => [("request_id", member_val r)] | None => [] end)
  | Other v => v
  | Opaque n => opaque n
  end.
Definition printed (p : payload) : vdict := map (fun kv => (fst kv, member_val (snd kv))) p.

(** messaging.py:65-88, all of it.  [clock] is what preflight reads
    (Model/PreflightDict.v). *)
Definition write_message (clock : nat -> datetime) (sign : string -> option string) (t : string) (p : vdict) : result string :=
  bind (preflight_message clock t p) (Jinja.create_message other sign t).

(** The VTN: its settings and handlers, what it signs with, and its
    surroundings.  [v_text] is the text of an HTTP error. *)
Record vtn := mk_vtn {
  v_config : config;
  v_clock : nat -> datetime;
  v_sign : string -> option string;
  v_signer : string -> result string;
  v_verify : string -> result unit;
  v_replay : string -> result unit;
  v_hook : string -> result unit;
  v_id : string;
  v_text : string }.
Definition vtn_world (v : vtn) : world := {|
  w_schema := fun t => bind (validate_xml_schema uri foreign t) (fun _ => Ok tt);
  w_parse := fun t => bind (parse_message num depth t) (fun r => Ok (fst r, received (snd r)));
  w_signer := v_signer v; w_verify := v_verify v; w_replay := v_replay v;
  w_render := fun t p => write_message (v_clock v) (v_sign v) t (printed p);
  w_hook := v_hook v; w_id := v_id v |}.

(** The connection: is it TLS, and with which certificate?  The header is set
    at client.py:1318. *)
Record connection := mk_connection { n_secure : bool; n_cert : result (option string) }.
Definition posted (n : connection) (text : string) : request := mk_rq "application/xml" (Ok text) (n_secure n) (n_cert n).
(** What comes back. *)
Definition content (v : vtn) (b : body) : string := match b with Message _ _ text => text | Text => v_text v | NoText => "" end.
Definition answered (v : vtn) (n : connection) (text : string) : Z * string :=
  match snd (handler (vtn_world v) (v_config v) (posted n text)) with
  | Reply status b => (status, content v b)
  | Unhandled _ => (500, v_text v)
  end.

(** The VEN. *)
Record ven := mk_ven {
  e_clock : nat -> datetime;
  e_sign : string -> option string;
  e_signed : bool;                                     (* is vtn_fingerprint given? *)
  e_signature : xml -> result unit;                    (* validate_xml_signature *)
  e_hooks : registry;
  e_behave : nat -> hook_arg string vdict -> result unit }.
(** client.py:1129-1133.  The schema makes the response a dict; a code that is not an integer is not 200. *)
Definition code_of (d : vdict) : option Z :=
  match vget "response" d with Some (VDict r) => match vget "response_code" r with Some (VInt z) => Some z | Some _ => Some 0 | None => None end | _ => None end.
Definition described (d : vdict) : bool := match vget "response" d with Some (VDict r) => vmem "response_description" r | _ => false end.
Definition ven_oracles (e : ven) (v : vtn) (n : connection) : oracles string xml vdict := {|
  behave := e_behave e;
  post := fun text => Ok (answered v n text);
  body_empty := fun t => String.eqb t "";
  decodes := fun _ => true;
  validate_schema := validate_xml_schema uri foreign;
  validate_signature := e_signature e;
  parse := parse_message num depth;
  response_code := code_of;
  has_description := described |}.

(** A request: what happens at the VTN, and what the VEN gets.  The methods of
    the client make a message of a payload and perform the request, for example
    client.py:393-397. *)
Definition exchange (e : ven) (v : vtn) (n : connection) (t : string) (p : vdict) : list VtnService.effect * result (ClientRequest.reply vdict) :=
  match write_message (e_clock e) (e_sign e) t p with
  | Raise x => ([], Raise x)
  | Ok text => (fst (handler (vtn_world v) (v_config v) (posted n text)), snd (perform_request _ _ _ (ven_oracles e v n) (e_hooks e) (e_signed e) text))
  end.
End Exchange.
