(** The text of a message: reading it (messaging.py:45-62) and the envelope
    (templates/oadrPayload.xml).

    xmltodict reads texts with expat.  Modelled of XML: elements, attributes
    in quotes, the five predefined entities, the XML declaration.
    Simplifications: comments, CDATA sections, a DTD and numeric character
    references are errors here; entities in attribute values are too; CR LF is
    read as two line ends; declarations (xmlns) are not kept (normalize_dict
    drops keys that begin with @, utils.py:79-80); bytes from 128 on are not
    checked to be UTF-8. *)
From Coq Require Import ZArith String Ascii List Bool.
From Verif.Base Require Import Result Dict PyStr.
From Verif.Model Require Import Text Normalize Xml.
Import ListNotations.
Local Open Scope string_scope.

(** expat: characters and tags. *)
Inductive token := Tag (raw : string) | Char (c : ascii).
Inductive place :=
| Content (brackets : nat)                            (* so many ] just before *)
| InTag (raw : string) (quote : option ascii)
| InEntity (name : string).

Definition snoc (s : string) (c : ascii) : string := s ++ String c EmptyString.
Definition legal (c : ascii) : bool :=
  let n := N_of_ascii c in ((n =? 9) || (n =? 10) || (n =? 13) || (32 <=? n))%N.
Definition entity (name : string) : option ascii :=
  match name with
  | "amp" => Some "&"%char | "lt" => Some "<"%char | "gt" => Some ">"%char | "quot" => Some """"%char | "apos" => Some "'"%char
  | _ => None
  end.
Definition is_quote (c : ascii) : bool := Ascii.eqb c """" || Ascii.eqb c "'".
Definition before (t : token) (o : option (list token)) : option (list token) := option_map (cons t) o.

Fixpoint lex (s : string) (p : place) : option (list token) :=
  match s with
  | EmptyString => match p with Content _ => Some [] | _ => None end
  | String c r =>
    match p with
    | Content k =>
      if Ascii.eqb c "<" then lex r (InTag "" None)
      else if Ascii.eqb c "&" then lex r (InEntity "")
      else if Ascii.eqb c "]" then before (Char c) (lex r (Content (S k)))
      else if Ascii.eqb c ">" && (2 <=? k)%nat then None
      else if legal c then before (Char (if Ascii.eqb c "013" then "010"%char else c)) (lex r (Content 0))
      else None
    | InTag raw None =>
      if Ascii.eqb c ">" then before (Tag raw) (lex r (Content 0))
      else if Ascii.eqb c "<" then None
      else lex r (InTag (snoc raw c) (if is_quote c then Some c else None))
    | InTag raw (Some q) =>
      if Ascii.eqb c q then lex r (InTag (snoc raw c) None)
      else if Ascii.eqb c "<" || Ascii.eqb c "&" then None
      else lex r (InTag (snoc raw c) (Some q))
    | InEntity name =>
      if Ascii.eqb c ";" then match entity name with Some d => before (Char d) (lex r (Content 0)) | None => None end
      else lex r (InEntity (snoc name c))
    end
  end.

(** Inside a tag. *)
Inductive where_ := Between | InName (n : string) | AtQuote (n : string) | InValue (n : string) (q : ascii) (v : string).
Fixpoint attributes (s : string) (w : where_) : option (list (string * string)) :=
  match s with
  | EmptyString => match w with Between => Some [] | _ => None end
  | String c r =>
    match w with
    | Between => if is_space c then attributes r Between else attributes r (InName (String c EmptyString))
    | InName n => if Ascii.eqb c "=" then attributes r (AtQuote n) else attributes r (InName (snoc n c))
    | AtQuote n => if is_quote c then attributes r (InValue n c "") else None
    | InValue n q v => if Ascii.eqb c q then option_map (cons (n, v)) (attributes r Between) else attributes r (InValue n q (snoc v c))
    end
  end.

Fixpoint span_name (s : string) : string * string :=
  match s with
  | EmptyString => (EmptyString, EmptyString)
  | String c r => if is_space c then (EmptyString, s) else let '(a, b) := span_name r in (String c a, b)
  end.
(** The text without a final slash. *)
Fixpoint without_slash (s : string) : option string :=
  match s with
  | EmptyString => None
  | String c EmptyString => if Ascii.eqb c "/" then Some EmptyString else None
  | String c r => option_map (String c) (without_slash r)
  end.

Inductive markup := Start (name : string) (attrs : list (string * string)) | End_ (name : string) | Empty (name : string) (attrs : list (string * string)) | Instruction.
Definition start_of (raw : string) : option markup :=
  let '(body, empty) := match without_slash raw with Some b => (b, true) | None => (raw, false) end in
  let '(name, rest) := span_name body in
  match name, attributes rest Between with
  | EmptyString, _ | _, None => None
  | _, Some attrs => Some (if empty then Empty name attrs else Start name attrs)
  end.
Definition markup_of (raw : string) : option markup :=
  match raw with
  | EmptyString => None
  | String c r =>
    if Ascii.eqb c "/" then Some (End_ (rstrip r))
    else if Ascii.eqb c "?" then Some Instruction
    else if Ascii.eqb c "!" then None
    else start_of raw
  end.

(** The elements that are open, the innermost first. *)
Record frame := mk_frame { f_qname : string; f_attrs : list (string * string); f_text : string; f_children : list xml }.
Definition new_frame (q : string) (attrs : list (string * string)) : frame := mk_frame q attrs "" [].
Definition add_char (c : ascii) (f : frame) : frame := mk_frame (f_qname f) (f_attrs f) (snoc (f_text f) c) (f_children f).
Definition add_child (x : xml) (f : frame) : frame := mk_frame (f_qname f) (f_attrs f) (f_text f) (f_children f ++ [x])%list.
Definition finish (f : frame) : xml := Elem (f_qname f) (f_attrs f) (f_text f) (f_children f).

Fixpoint build (ts : list token) (stack : list frame) (root : option xml) : option xml :=
  match ts with
  | [] => match stack with [] => root | _ => None end
  | Char c :: ts =>
    match stack with
    | [] => if is_space c then build ts [] root else None
    | f :: stack => build ts (add_char c f :: stack) root
    end
  | Tag raw :: ts =>
    match markup_of raw with
    | None => None
    | Some Instruction => build ts stack root
    | Some (Start q attrs) =>
      match stack, root with [], Some _ => None | _, _ => build ts (new_frame q attrs :: stack) root end
    | Some (Empty q attrs) =>
      match stack, root with
      | [], Some _ => None
      | [], None => build ts [] (Some (finish (new_frame q attrs)))
      | f :: stack, _ => build ts (add_child (finish (new_frame q attrs)) f :: stack) root
      end
    | Some (End_ q) =>
      match stack with
      | [] => None
      | f :: stack =>
        if f_qname f =? q then
          match stack with
          | [] => build ts [] (Some (finish f))
          | g :: stack => build ts (add_child (finish f) g :: stack) root
          end
        else None
      end
    end
  end.

(** The elements as they are written: names with prefixes, and declarations
    among the attributes. *)
Definition read_raw (s : string) : option xml := match lex s (Content 0) with Some ts => build ts [] None | None => None end.

(** ** Namespaces (expat with process_namespaces, messaging.py:59; lxml,
    messaging.py:91-98)

    Names are expanded to {namespace}name.  An error: a prefix that is not
    declared, or declared as nothing; a declaration of the prefixes xml or
    xmlns; two attributes of one name. *)
Definition scope := list (string * string).
Definition lookup (p : string) (sc : scope) : option string := get String.eqb p sc.
Definition clark (u n : string) : string := "{" ++ u ++ "}" ++ n.
(** The prefix, if any, and the rest. *)
Fixpoint split_colon (s : string) : option (string * string) :=
  match s with
  | EmptyString => None
  | String c r => if Ascii.eqb c ":" then Some (EmptyString, r) else match split_colon r with Some (a, b) => Some (String c a, b) | None => None end
  end.
Fixpoint declarations (raw : list (string * string)) : option scope :=
  match raw with
  | [] => Some []
  | (q, v) :: raw =>
    match declarations raw with
    | None => None
    | Some ds =>
      if q =? "xmlns" then Some ((EmptyString, v) :: ds)
      else match split_colon q with
      | Some (x, p) => if negb (x =? "xmlns") then Some ds else if (p =? "xml") || (p =? "xmlns") || (v =? "") then None else Some ((p, v) :: ds)
      | None => Some ds
      end
    end
  end.
Definition prefixed_name (sc : scope) (p n : string) : option string := match lookup p sc with Some u => Some (clark u n) | None => None end.
Definition element_name (sc : scope) (q : string) : option string :=
  match split_colon q with
  | Some (p, n) => prefixed_name sc p n
  | None => match lookup "" sc with Some u => Some (if u =? "" then q else clark u q) | None => Some q end
  end.
Fixpoint attribute_names (sc : scope) (raw : list (string * string)) : option (list (string * string)) :=
  match raw with
  | [] => Some []
  | (q, v) :: raw =>
    match attribute_names sc raw with
    | None => None
    | Some attrs =>
      if q =? "xmlns" then Some attrs
      else match split_colon q with
      | Some (p, n) => if p =? "xmlns" then Some attrs else match prefixed_name sc p n with Some m => Some ((m, v) :: attrs) | None => None end
      | None => Some ((q, v) :: attrs)
      end
    end
  end.
Fixpoint distinct (l : list string) : bool := match l with [] => true | x :: l => negb (existsb (String.eqb x) l) && distinct l end.
Definition all_some {A B} (f : A -> option B) : list A -> option (list B) :=
  fix go l := match l with [] => Some [] | a :: l => match f a, go l with Some b, Some l => Some (b :: l) | _, _ => None end end.
Fixpoint expand (sc : scope) (x : xml) : option xml :=
  match x with
  | Elem q raw t cs =>
    match declarations raw with
    | None => None
    | Some ds =>
      let sc := (ds ++ sc)%list in
      match element_name sc q, attribute_names sc raw, all_some (expand sc) cs with
      | Some n, Some attrs, Some cs => if distinct (map fst raw) && distinct (map fst attrs) then Some (Elem n attrs t cs) else None
      | _, _, _ => None
      end
    end
  end.
Definition outer_scope : scope := [("xml", "http://www.w3.org/XML/1998/namespace")].
(** lxml.etree.fromstring *)
Definition read_expanded (s : string) : option xml := match read_raw s with Some r => expand outer_scope r | None => None end.

(** messaging.py:227-238: the namespaces that xmltodict drops. *)
Definition namespaces : list string :=
  ["http://docs.oasis-open.org/ns/energyinterop/201110";
   "http://openadr.org/oadr-2.0b/2012/07";
   "urn:ietf:params:xml:ns:icalendar-2.0";
   "http://docs.oasis-open.org/ns/energyinterop/201110/payloads";
   "http://docs.oasis-open.org/ns/emix/2011/06";
   "urn:ietf:params:xml:ns:icalendar-2.0:stream";
   "http://docs.oasis-open.org/ns/emix/2011/06/power";
   "http://docs.oasis-open.org/ns/emix/2011/06/siscale";
   "http://www.w3.org/2000/09/xmldsig#";
   "http://openadr.org/oadr-2.0b/2012/07/xmldsig-properties"].
(** xmltodict, _build_name: any other namespace is kept before the name.  There
    is no brace in a name, but there may be one in a namespace. *)
Fixpoint split_brace (s : string) : option (string * string) :=
  match s with
  | EmptyString => None
  | String c r => match split_brace r with Some (a, b) => Some (String c a, b) | None => if Ascii.eqb c "}" then Some (EmptyString, r) else None end
  end.
Definition plain_name (s : string) : string :=
  match strip_prefix "{" s with
  | Some r =>
    match split_brace r with
    | Some (u, n) => if existsb (String.eqb u) namespaces then n else u ++ ":" ++ n
    | None => s
    end
  | None => s
  end.
Fixpoint plain_xml (x : xml) : xml :=
  match x with Elem n attrs t cs => Elem (plain_name n) (map (fun a => (plain_name (fst a), snd a)) attrs) t (map plain_xml cs) end.
Definition read_xml (s : string) : option xml := option_map plain_xml (read_expanded s).

(** messaging.py:59-62 parse_message: the kind of the message and its
    contents.  A text that is not XML: ExpatError, written XMLSyntaxError here.  popitem takes the last
    member. *)
Definition last_item (d : vdict) : option (string * val) := match rev d with x :: _ => Some x | [] => None end.
Definition parse_message (num : numbers) (depth : nat) (data : string) : result (string * vdict) :=
  match read_xml data with
  | None => Raise XMLSyntaxError
  | Some root =>
    if xml_name root =? "oadrPayload" then
      match to_val root with
      | VDict payload =>
        match vget "oadrSignedObject" payload with
        | Some (VDict object) =>
          match last_item object with
          | Some (kind, VDict d) => bind (normalize num depth d) (fun d => Ok (kind, d))
          | Some _ => Raise AttributeError
          | None => Raise KeyError
          end
        | Some _ => Raise AttributeError
        | None => Raise KeyError
        end
      | _ => Raise TypeError
      end
    else Raise KeyError
  end.

(** templates/oadrPayload.xml:1-5 (messaging.py:85-87).  [signature] is empty
    for a message that is not signed; the line feed after the block of line 3
    is not printed (trim_blocks, messaging.py:223). *)
Definition lf : string := String newline EmptyString.
Definition envelope (signature signed_object : string) : string :=
  "<?xml version=""1.0"" encoding=""utf-8""?>" ++ lf ++
  "<oadr:oadrPayload xmlns:oadr=""http://openadr.org/oadr-2.0b/2012/07"">" ++ lf ++
  signature ++ signed_object ++ lf ++ "</oadr:oadrPayload>".

(** messaging.py:69-87 create_message, from the text that the template of the
    message renders (lines 71 and 85-87). *)
Definition create_text (signature rendered : string) : string := envelope signature (flatten_xml rendered).

(** templates/oadr*.xml: the element around a message. *)
Definition signed_object_xml (message : xml) : xml := Elem "oadrSignedObject" [("Id", "oadrSignedObject")] "" [message].
