(** XML Schema validation: messaging.validate_xml_schema (messaging.py:91-98)
    with XML_PARSER (messaging.py:38-42), by the schema files in schema/.

    lxml hands this to libxml2.  Modelled is what XML Schema says for the
    features that the schema files use: sequences and choices of elements with
    occurrence bounds, substitution groups, optional attributes, fixed values
    and simple types.  Not modelled: the schemas of XML signatures, Atom and
    Green Button (a predicate says which of their elements are valid, and it is
    also asked about elements with xsi attributes, about the content of elements
    without a type and about documents with another root than oadrPayload);
    uniqueness of xs:ID; the syntax of xs:anyURI, for which there is another
    predicate; digits, letters and white space beyond ASCII. *)
From Coq Require Import ZArith String Ascii List Bool.
From Verif.Base Require Import Result PyStr.
From Verif.Model Require Import DateTime Xml XmlText.
Import ListNotations.
Local Open Scope string_scope.
Local Open Scope Z_scope.

(** ** Patterns: the regular expressions of XML Schema *)
Inductive regex := Never | Empty | CharIn (f : ascii -> bool) | Seq (a b : regex) | Or (a b : regex) | Star (a : regex).
(** By derivatives. *)
Fixpoint nullable (r : regex) : bool :=
  match r with Never | CharIn _ => false | Empty | Star _ => true | Seq a b => nullable a && nullable b | Or a b => nullable a || nullable b end.
Fixpoint derive (c : ascii) (r : regex) : regex :=
  match r with
  | Never | Empty => Never
  | CharIn f => if f c then Empty else Never
  | Seq a b => if nullable a then Or (Seq (derive c a) b) (derive c b) else Seq (derive c a) b
  | Or a b => Or (derive c a) (derive c b)
  | Star a => Seq (derive c a) (Star a)
  end.
Fixpoint matches (r : regex) (s : string) : bool := match s with EmptyString => nullable r | String c s => matches (derive c r) s end.

Definition lit (c : ascii) : regex := CharIn (Ascii.eqb c).
Definition digit : regex := CharIn is_digit.
Definition perhaps (r : regex) : regex := Or Empty r.
Definition plus (r : regex) : regex := Seq r (Star r).
Fixpoint seqs (rs : list regex) : regex := match rs with [] => Empty | [r] => r | r :: rs => Seq r (seqs rs) end.
Definition times (n : nat) (r : regex) : regex := seqs (repeat r n).
(** An optional number with its unit. *)
Definition field (u : ascii) : regex := perhaps (Seq (plus digit) (lit u)).

(** Tabs, line ends and spaces. *)
Definition space (c : ascii) : bool := existsb (Ascii.eqb c) ["009"; "010"; "013"; "032"]%char.
Definition line_end (c : ascii) : bool := existsb (Ascii.eqb c) ["010"; "013"]%char.

(** schema/oadr_ei_20b.xsd:54-61, pattern x-\S.* *)
Definition extension_pattern : regex := seqs [lit "x"; lit "-"; CharIn (fun c => negb (space c)); Star (CharIn (fun c => negb (line_end c)))].
(** schema/oadr_ei_20b.xsd:161-175, pattern [0-9][0-9][0-9] *)
Definition code_pattern : regex := times 3 digit.
(** schema/oadr_xcal_20b.xsd:9-13, pattern (\-|\+)?\d{4}\-\d{2}\-\d{2}T\d{2}:\d{2}:\d{2}(\.\d* )?Z? (the space is not in it) *)
Definition sign : regex := perhaps (Or (lit "-") (lit "+")).
Definition time_pattern : regex :=
  seqs [sign; times 4 digit; lit "-"; times 2 digit; lit "-"; times 2 digit; lit "T"; times 2 digit; lit ":"; times 2 digit; lit ":"; times 2 digit;
        perhaps (Seq (lit ".") (Star digit)); perhaps (lit "Z")].
(** schema/oadr_xcal_20b.xsd:27-31, pattern
    (\+|\-)?P((\d+Y)?(\d+M)?(\d+D)?T?(\d+H)?(\d+M)?(\d+S)?)|(\d+W) *)
Definition duration_pattern : regex :=
  Or (seqs [sign; lit "P"; field "Y"; field "M"; field "D"; perhaps (lit "T"); field "H"; field "M"; field "S"]) (Seq (plus digit) (lit "W")).

(** ** Simple types *)
Inductive simple :=
| Text | Token | Boolean | UnsignedInt | Float | Double | Decimal | DateTime | AnyURI | Id     (* built in *)
| OneOf (base : simple) (values : list string)
| Matching (base : simple) (r : regex)
| AtLeast (base : simple) (n : Z)
| AtMost (base : simple) (n : Z)
| Union (members : list simple)
| ListOf (item : simple).

(** White space: only xs:string keeps it (facet whiteSpace); all other types
    used have each run of it turned into one space, and none at the ends. *)
Fixpoint words_from (word : string) (s : string) : list string :=
  let done := match word with EmptyString => [] | _ => [word] end in
  match s with
  | EmptyString => done
  | String c s => if space c then (done ++ words_from "" s)%list else words_from (word ++ String c "") s
  end.
Definition words (s : string) : list string := words_from "" s.
Definition collapse (s : string) : string := join " " (words s).
Fixpoint preserves (s : simple) : bool :=
  match s with Text => true | OneOf b _ | Matching b _ | AtLeast b _ | AtMost b _ => preserves b | _ => false end.
Definition value_of (s : simple) (t : string) : string := if preserves s then t else collapse t.

(** The literals of the built-in types.  xs:float and xs:double allow the same
    texts. *)
Definition mantissa : regex := Or (Seq (plus digit) (perhaps (Seq (lit ".") (Star digit)))) (Seq (lit ".") (plus digit)).
Definition decimal_pattern : regex := Seq sign mantissa.
Definition letters (s : string) : regex := seqs (map lit (list_ascii_of_string s)).
Definition float_pattern : regex :=
  Or (seqs [sign; mantissa; perhaps (seqs [Or (lit "e") (lit "E"); sign; plus digit])]) (Or (Seq (perhaps (lit "-")) (letters "INF")) (letters "NaN")).
(** Names: ASCII letters, digits and _ - . (and all that is not ASCII). *)
Definition name_start (c : ascii) : bool := is_upper c || is_lower c || Ascii.eqb c "_" || (128 <=? Z.of_nat (nat_of_ascii c)).
Definition name_part (c : ascii) : bool := name_start c || is_digit c || Ascii.eqb c "-" || Ascii.eqb c ".".
(** xs:dateTime, for the texts that time_pattern lets through: a date of the
    calendar (there is no year 0), a time of day or 24:00:00, with digits
    after a decimal point.  (libxml2, xmlschemastypes.c.) *)
Definition after_sign (s : string) : string := match strip_prefix "-" s with Some r => r | None => s end.
Definition date_time (s : string) : bool :=
  match obind (take_digits 4 (after_sign s)) (fun '(y, s) => obind (expect "-" s) (fun s =>
        obind (take_digits 2 s) (fun '(mo, s) => obind (expect "-" s) (fun s =>
        obind (take_digits 2 s) (fun '(d, s) => obind (expect "T" s) (fun s =>
        obind (take_digits 2 s) (fun '(h, s) => obind (expect ":" s) (fun s =>
        obind (take_digits 2 s) (fun '(mi, s) => obind (expect ":" s) (fun s =>
        obind (take_digits 2 s) (fun '(se, s) => Some (int_of y, int_of mo, int_of d, (int_of h, int_of mi, int_of se), s)))))))))))) with
  | Some (y, mo, d, (h, mi, se), rest) =>
    negb (y =? 0) && (1 <=? mo) && (mo <=? 12) && (1 <=? d) && (d <=? days_in_month y mo)
    && (((h <=? 23) && (mi <=? 59) && (se <=? 59)) || ((h =? 24) && (mi =? 0) && (se =? 0)))
    && matches (Seq (perhaps (Seq (lit ".") (plus digit))) (perhaps (lit "Z"))) rest
  | None => false
  end.

Section Validation.
Variable uri : string -> bool.        (* the texts that are valid as xs:anyURI *)
Variable foreign : xml -> bool.       (* the elements of other schemas that are valid *)

(** Is the text [t] valid as a value of the type? *)
Fixpoint fits (s : simple) (t : string) : bool :=
  match s with
  | Text | Token => true
  | Boolean => existsb (String.eqb (collapse t)) ["true"; "false"; "1"; "0"]
  | UnsignedInt => let t := collapse t in negb (t =? "")%string && all_digits t && (int_of t <=? 4294967295)
  | Float | Double => matches float_pattern (collapse t)
  | Decimal => matches decimal_pattern (collapse t)
  | DateTime => date_time (collapse t)
  | AnyURI => uri (collapse t)
  | Id => matches (Seq (CharIn name_start) (Star (CharIn name_part))) (collapse t)
  | OneOf b values => fits b t && existsb (String.eqb (value_of b t)) values
  | Matching b r => fits b t && matches r (value_of b t)
  | AtLeast b n => fits b t && (n <=? int_of (collapse t))
  | AtMost b n => fits b t && (int_of (collapse t) <=? n)
  | Union members => existsb (fun m => fits m t) members
  | ListOf item => forallb (fits item) (words t)
  end.

(** ** Elements

    The types of elements.  [Complex attrs ps]: optional attributes, and
    children for each particle in turn: at least [least] and at most [most]
    of them (or any number), each with one of the given names and valid by the
    type with it. *)
Inductive ty :=
| Simple (attrs : list (string * simple)) (s : simple)
| Fixed (s : simple) (value : string)
| Complex (attrs : list (string * simple)) (ps : list (list (string * ty) * nat * option nat))
| Anything
| Foreign.
Definition particle : Type := (list (string * ty) * nat * option nat)%type.
Definition p_alts (p : particle) : list (string * ty) := fst (fst p).
Definition enough (p : particle) (n : nat) : bool :=
  (Nat.leb (snd (fst p)) n && match snd p with Some m => Nat.leb n m | None => true end)%bool.

Definition blank_text (t : string) : bool := forallb space (list_ascii_of_string t).
Definition find_name {A} (n : string) (l : list (string * A)) : option A := option_map snd (find (fun a => (fst a =? n)%string) l).
Definition attributes (declared : list (string * simple)) (attrs : list (string * string)) : bool :=
  forallb (fun a => match find_name (fst a) declared with Some s => fits s (snd a) | None => false end) attrs.
(** xsi:type, xsi:nil and so on. *)
Definition instance_attribute (a : string * string) : bool := startswith "{http://www.w3.org/2001/XMLSchema-instance}" (fst a).

(** The children of an element, as names with what says whether they are valid
    by a type.  No type has two particles that share a name, so that taking as
    many children as there are for each particle is right. *)
Fixpoint span_names {B} (alts : list (string * ty)) (cs : list (string * B)) : list (string * B) * list (string * B) :=
  match cs with
  | [] => ([], [])
  | c :: cs' => match find_name (fst c) alts with Some _ => let '(a, b) := span_names alts cs' in (c :: a, b) | None => ([], cs) end
  end.
Fixpoint children (ps : list particle) (cs : list (string * (ty -> bool))) : bool :=
  match ps with
  | [] => match cs with [] => true | _ => false end
  | p :: ps =>
    let '(mine, rest) := span_names (p_alts p) cs in
    enough p (length mine) && forallb (fun c => match find_name (fst c) (p_alts p) with Some ty => snd c ty | None => false end) mine && children ps rest
  end.

Fixpoint valid (x : xml) (t : ty) : bool :=
  match x with
  | Elem _ attrs text cs =>
    if existsb instance_attribute attrs then foreign x else
    match t with
    | Simple declared s => attributes declared attrs && match cs with [] => fits s text | _ => false end
    | Fixed s v => attributes [] attrs && match cs with [] => (text =? "")%string || (fits s text && (value_of s text =? v)%string) | _ => false end
    | Complex declared ps => attributes declared attrs && blank_text text && children ps (map (fun c => (xml_name c, valid c)) cs)
    | Anything => forallb foreign cs
    | Foreign => foreign x
    end
  end.

(** A document with the root [n] of type [t]. *)
Definition valid_document (n : string) (t : ty) (x : xml) : bool := if (xml_name x =? n)%string then valid x t else foreign x.
End Validation.
