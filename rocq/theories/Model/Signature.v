(** Signed messages: messaging.validate_xml_signature (messaging.py:101-113),
    the signature part of messaging.authenticate_message (messaging.py:156-172),
    messaging._create_replay_protect (messaging.py:175-187),
    utils.extract_pem_cert (utils.py:426-438) and the way of a signed message
    through client._perform_request (client.py:1109-1116).

    A message is a tree with expanded names (Model/XmlText).  VERIFIER is an
    XMLVerifier of the signxml package (messaging.py:36), which is not part of
    the repository: [verify] is what XML signatures prescribe (find the
    signature, resolve its references in the document, check them), as
    signxml does it; the digests and the signature value are an oracle. *)
From Coq Require Import ZArith String Ascii List Bool.
From Verif.Base Require Import Result PyStr.
From Verif.Model Require Import DateTime Normalize Xml XmlText Schema SchemaTypes Replay.
Import ListNotations.
Local Open Scope string_scope.

(** lxml: the elements below [x], in document order ([.//*]). *)
Fixpoint below (x : xml) : list xml := match x with Elem _ _ _ cs => flat_map (fun c => c :: below c) cs end.
(** [tree.find('.//{uri}name')]: the first element of that name. *)
Definition find_below (name : string) (x : xml) : option xml := List.find (fun y => xml_name y =? name) (below x).
(** The text of an element; the model of a tree does not keep apart the text
    before and after its children (texts of elements with children are not
    used here). *)
Definition own_text (x : xml) : string := match x with Elem _ _ t _ => t end.
(** [tree.findtext('.//{uri}name')]: "" for an element without text. *)
Definition findtext (name : string) (x : xml) : option string := option_map own_text (find_below name x).

(** messaging.py:176 and others: the namespace of the ReplayProtect element. *)
Definition in_dsp (n : string) : string := clark "http://openadr.org/oadr-2.0b/2012/07/xmldsig-properties" n.

(** str.endswith. *)
Fixpoint ends_with (e s : string) : bool := (s =? e) || match s with String _ r => ends_with e r | EmptyString => false end.
(** utils.py:426-438.  The text of an element without text is None, which has
    no endswith: AttributeError. *)
Definition pem (text : string) : string :=
  "-----BEGIN CERTIFICATE-----" ++ lf ++ (if ends_with lf text then text else text ++ lf) ++ "-----END CERTIFICATE-----" ++ lf.
Definition extract_pem_cert (tree : xml) : result string :=
  match find_below (in_ds "X509Certificate") tree with
  | Some c => match own_text c with EmptyString => Raise AttributeError | t => Ok (pem t) end
  | None => Raise AttributeError
  end.

(** messaging.py:175-187.  [now] is datetime.now(timezone.utc), [nonce] is
    uuid4().hex. *)
Definition create_replay_protect (now : datetime) (nonce : string) : result xml :=
  bind (datetimeformat now) (fun t =>
  Ok (Elem (in_dsp "ReplayProtect") [("Id", "myid"); ("Target", "#mytarget")] ""
           [Elem (in_dsp "timestamp") [] t []; Elem (in_dsp "nonce") [] nonce []])).

(** messaging.py:73-87: the document that create_message makes of a signed
    message, as signxml builds it for method detached, reference_uri
    "#oadrSignedObject" and these signature properties: two references, the
    certificate, and the properties in an object "prop".  [digest1], [digest2],
    [value]: the texts that signxml computes.  (signxml moves the attributes Id
    and Target of the properties to the SignatureProperty.) *)
Definition plain_el (name text : string) : xml := Elem (in_ds name) [] text [].
Definition algorithm (name uri : string) : xml := Elem (in_ds name) [("Algorithm", uri)] "" [].
Definition c14n : string := "http://www.w3.org/TR/2001/REC-xml-c14n-20010315".
Definition reference (uri digest : string) : xml :=
  Elem (in_ds "Reference") [("URI", uri)] "" [
    Elem (in_ds "Transforms") [] "" [algorithm "Transform" c14n];
    algorithm "DigestMethod" "http://www.w3.org/2001/04/xmlenc#sha256"; plain_el "DigestValue" digest].
Definition signed_info (digest1 digest2 : string) : xml :=
  Elem (in_ds "SignedInfo") [] "" [
    algorithm "CanonicalizationMethod" c14n; algorithm "SignatureMethod" "http://www.w3.org/2001/04/xmldsig-more#rsa-sha256";
    reference "#oadrSignedObject" digest1; reference "#prop" digest2].
Definition properties (replay_protect : xml) : xml :=
  Elem (in_ds "Object") [("Id", "prop")] "" [
    Elem (in_ds "SignatureProperties") [] "" [
      Elem (in_ds "SignatureProperty") [("Id", "myid"); ("Target", "#mytarget")] "" [
        match replay_protect with Elem n _ t cs => Elem n [] t cs end]]].
Definition signature (digest1 digest2 value certificate : string) (replay_protect : xml) : xml :=
  Elem (in_ds "Signature") [] "" [
    signed_info digest1 digest2; plain_el "SignatureValue" value;
    Elem (in_ds "KeyInfo") [] "" [Elem (in_ds "X509Data") [] "" [plain_el "X509Certificate" certificate]];
    properties replay_protect].
Definition signed_document (digest1 digest2 value certificate : string) (replay_protect object : xml) : xml :=
  Elem (in_oadr "oadrPayload") [] (lf ++ lf) [signature digest1 digest2 value certificate replay_protect; object].

(** XPath local-name(): the name without its namespace. *)
Definition local_name (s : string) : string :=
  match strip_prefix "{" s with
  | Some r => match split_brace r with Some (_, n) => n | None => s end
  | None => s
  end.
(** The elements that a URI "#id" may mean: the elements of the whole document
    with an attribute Id (of whatever namespace; signxml also tries ID and id,
    which are not modelled) of that value.  More than one, or none, is an
    error. *)
Definition carries (id : string) (x : xml) : bool :=
  match x with Elem _ attrs _ _ => existsb (fun a => (local_name (fst a) =? "Id") && (snd a =? id)) attrs end.
Definition resolve (x : xml) (uri : string) : option xml :=
  match uri with
  | String "#" id => match filter (carries id) (x :: below x) with [y] => Some y | _ => None end
  | _ => None
  end.
Fixpoint resolve_all (x : xml) (uris : list string) : option (list xml) :=
  match uris with
  | [] => Some []
  | u :: us => match resolve x u, resolve_all x us with Some y, Some ys => Some (y :: ys) | _, _ => None end
  end.

(** The URIs of the references in a ds:SignedInfo.  (An absent URI is written
    "" here; neither resolves.) *)
Definition children_of (x : xml) : list xml := match x with Elem _ _ _ cs => cs end.
Definition named (name : string) (x : xml) : bool := xml_name x =? name.
Definition uri_of (x : xml) : string :=
  match x with Elem _ attrs _ _ => match List.find (fun a => fst a =? "URI") attrs with Some a => snd a | None => "" end end.
Definition references (info : xml) : list string := map uri_of (filter (named (in_ds "Reference")) (children_of info)).
(** The signature of a document: signxml takes the first in the document; its
    SignedInfo and its SignatureValue. *)
Definition signature_of (x : xml) : option (xml * xml) :=
  match find_below (in_ds "Signature") x with
  | Some s => match List.find (named (in_ds "SignedInfo")) (children_of s), List.find (named (in_ds "SignatureValue")) (children_of s) with
              | Some i, Some v => Some (i, v)
              | _, _ => None
              end
  | None => None
  end.

Section Verification.
(** utils.py:399-404 certificate_fingerprint, of the PEM text. *)
Variable fingerprint_of : string -> result string.
(** The arithmetic of the signature: with the key of this certificate, the
    SignatureValue is one of this SignedInfo, and its digests are those of
    these elements. *)
Variable checks : string -> xml -> xml -> list xml -> bool.

(** VERIFIER.verify(xml_tree, x509_cert=cert, expect_references=2): the
    elements that the signature is of.  (messaging.py:112 drops them.) *)
Definition verify (x : xml) (cert : string) : result (list xml) :=
  match signature_of x with
  | None => Raise ValueError
  | Some (info, value) =>
    if Nat.eqb (length (references info)) 2 then
      match resolve_all x (references info) with
      | None => Raise ValueError
      | Some ts => if checks cert info value ts then Ok ts else Raise InvalidSignature
      end
    else Raise InvalidSignature
  end.

(** What the clock and the order of sets contribute to one check. *)
Record moment := { m_now : Z; m_clk : nat -> Z; m_shuffle : list entry -> list entry }.
Definition replay_check (m : moment) (x : xml) : check :=
  {| ck_ts := findtext (in_dsp "timestamp") x; ck_nonce := findtext (in_dsp "nonce") x;
     ck_now := m_now m; ck_clk := m_clk m; ck_shuffle := m_shuffle m |}.

(** messaging.py:101-113; with the nonce cache before and after. *)
Definition validate_xml_signature (m : moment) (expected : option string) (x : xml) (cache : list entry) : result unit * list entry :=
  match extract_pem_cert x with
  | Raise e => (Raise e, cache)
  | Ok cert =>
    match (match expected with
           | Some e => bind (fingerprint_of cert) (fun f => if f =? e then Ok tt else Raise FingerprintMismatch)
           | None => Ok tt
           end) with
    | Raise e => (Raise e, cache)
    | Ok _ =>
      match verify x cert with
      | Raise e => (Raise e, cache)
      | Ok _ => do_check (replay_check m x) cache
      end
    end
  end.

(** messaging.py:156-172, the part of authenticate_message for a server that
    verifies signatures; [expected] is the fingerprint of the VEN (not None
    here). *)
Definition not_authorized : exn := ProtocolError 463 "".
Definition authenticate_signature (m : moment) (expected : string) (x : xml) (cache : list entry) : result unit * list entry :=
  match extract_pem_cert x with
  | Raise e => (Raise e, cache)
  | Ok cert =>
    match fingerprint_of cert with
    | Raise e => (Raise e, cache)
    | Ok f =>
      if f =? expected then
        match validate_xml_signature m None x cache with
        | (Raise ValueError, cache) => (Raise not_authorized, cache)
        | r => r
        end
      else (Raise not_authorized, cache)
    end
  end.

(** client.py:1109-1116, for a VEN that knows the fingerprint of its VTN: the
    kind and the payload of the message, or the exception that makes the VEN
    ignore it (client.py:1117-1128). *)
Variable num : numbers.
Variable depth : nat.
Variable uri : string -> bool.
Variable foreign : xml -> bool.
Variable expected : string.
Definition receive (m : moment) (content : string) (cache : list entry) : result (string * vdict) * list entry :=
  match validate_xml_schema uri foreign content with
  | Raise e => (Raise e, cache)
  | Ok tree =>
    match validate_xml_signature m (Some expected) tree cache with
    | (Raise e, cache) => (Raise e, cache)
    | (Ok _, cache) => (parse_message num depth content, cache)
    end
  end.
(** The messages that arrive in one process, in order. *)
Fixpoint receive_all (h : list (moment * string)) (cache : list entry) : list (result (string * vdict)) :=
  match h with
  | [] => []
  | (m, s) :: h => let '(o, cache) := receive m s cache in o :: receive_all h cache
  end.
End Verification.
