(** Vocabulary for C79: how an element may be written. *)
From Coq Require Import ZArith String Ascii List Bool.
From Verif.Spec Require Import TextSpec.
From Verif.Model Require Xml.
Import ListNotations.
Local Open Scope string_scope.

Notation xml := Xml.xml.
Notation Elem := Xml.Elem.

(** Letters, digits, dash, dot, underscore. *)
Definition name_char (c : ascii) : Prop :=
  let n := N_of_ascii c in (48 <= n <= 57 \/ 65 <= n <= 90 \/ 97 <= n <= 122 \/ n = 45 \/ n = 46 \/ n = 95)%N.
Fixpoint all_chars (P : ascii -> Prop) (s : string) : Prop := match s with EmptyString => True | String c r => P c /\ all_chars P r end.
Definition name (s : string) : Prop := s <> "" /\ all_chars name_char s.

(** [writes n q]: the name [n] with or without a prefix. *)
Inductive writes (n : string) : string -> Prop :=
| wr_local : name n -> writes n n
| wr_prefix p : name p -> name n -> writes n (p ++ ":" ++ n).

Definition value_char (c : ascii) : Prop := ~ In c ["034"; "039"; "038"; "060"; "010"; "062"]%char.
(** [attrs_as attrs s]: these attributes, declarations among them; a space may
    follow. *)
Inductive attrs_as : list (string * string) -> string -> Prop :=
| aa_nil : attrs_as [] ""
| aa_space : attrs_as [] " "
| aa_attr n q v attrs s : writes n q -> all_chars value_char v -> attrs_as attrs s -> attrs_as ((q, v) :: attrs) (" " ++ q ++ "=""" ++ v ++ """" ++ s).

(** [lays x s]: [s] is a way to write [x], an element with names and attributes
    as they are written: with any white space around children, and with the
    text put in as it is. *)
Inductive lays : xml -> string -> Prop :=
| sh_text n q attrs a t : writes n q -> attrs_as attrs a ->
    lays (Elem q attrs t []) ("<" ++ q ++ a ++ ">" ++ t ++ "</" ++ q ++ ">")
| sh_empty n q attrs a w : writes n q -> attrs_as attrs a -> w = "" \/ w = " " -> lays (Elem q attrs "" []) ("<" ++ q ++ a ++ w ++ "/>")
| sh_node n q attrs a cs b : writes n q -> attrs_as attrs a -> lays_all cs b ->
    lays (Elem q attrs "" cs) ("<" ++ q ++ a ++ ">" ++ b ++ "</" ++ q ++ ">")
with lays_all : list xml -> string -> Prop :=
| sa_nil w : all_blank w -> all_chars (fun c => In c ["009"; "010"; "032"]%char) w -> lays_all [] w
| sa_cons w x s cs b : all_blank w -> all_chars (fun c => In c ["009"; "010"; "032"]%char) w -> lays x s -> lays_all cs b -> lays_all (x :: cs) (w ++ s ++ b).

(** ** Namespaces

    [means sc x e]: where the prefixes are declared as in [sc], the names in
    [x] stand for those in [e], which have their namespaces before them.  The
    nearest declaration counts; the default namespace is declared as the empty
    prefix, and is not for attributes. *)
Definition declared (p : string) (sc : list (string * string)) (u : string) : Prop := exists a b, sc = (a ++ (p, u) :: b)%list /\ ~ In p (map fst a).
Definition expanded (u n : string) : string := "{" ++ u ++ "}" ++ n.
Inductive declares : list (string * string) -> list (string * string) -> Prop :=
| de_nil : declares [] []
| de_default v attrs ds : declares attrs ds -> declares (("xmlns", v) :: attrs) (("", v) :: ds)
| de_prefix p v attrs ds : p <> "xml" -> p <> "xmlns" -> v <> "" -> declares attrs ds -> declares (("xmlns:" ++ p, v) :: attrs) ((p, v) :: ds)
| de_other q v attrs ds : q <> "xmlns" -> (forall p, q <> "xmlns:" ++ p) -> declares attrs ds -> declares ((q, v) :: attrs) ds.
Inductive element_means (sc : list (string * string)) : string -> string -> Prop :=
| em_prefix p n u : name p -> name n -> declared p sc u -> element_means sc (p ++ ":" ++ n) (expanded u n)
| em_default n u : name n -> declared "" sc u -> u <> "" -> element_means sc n (expanded u n)
| em_none n : name n -> declared "" sc "" \/ ~ In "" (map fst sc) -> element_means sc n n.
Inductive attributes_mean (sc : list (string * string)) : list (string * string) -> list (string * string) -> Prop :=
| am_nil : attributes_mean sc [] []
| am_declaration q v attrs l : q = "xmlns" \/ (exists p, q = "xmlns:" ++ p) -> attributes_mean sc attrs l -> attributes_mean sc ((q, v) :: attrs) l
| am_local n v attrs l : name n -> n <> "xmlns" -> attributes_mean sc attrs l -> attributes_mean sc ((n, v) :: attrs) ((n, v) :: l)
| am_prefix p n u v attrs l : name p -> p <> "xmlns" -> name n -> declared p sc u -> attributes_mean sc attrs l ->
    attributes_mean sc ((p ++ ":" ++ n, v) :: attrs) ((expanded u n, v) :: l).
Inductive means (sc : list (string * string)) : xml -> xml -> Prop :=
| me q raw t cs ds n attrs es : NoDup (map fst raw) -> declares raw ds -> element_means (ds ++ sc) q n -> attributes_mean (ds ++ sc) raw attrs -> NoDup (map fst attrs) ->
    means_all (ds ++ sc) cs es -> means sc (Elem q raw t cs) (Elem n attrs t es)
with means_all (sc : list (string * string)) : list xml -> list xml -> Prop :=
| ma_nil : means_all sc [] []
| ma_cons x e xs es : means sc x e -> means_all sc xs es -> means_all sc (x :: xs) (e :: es).

(** The namespaces of OpenADR and of signatures; the reader drops them. *)
Definition familiar : list string :=
  ["http://openadr.org/oadr-2.0b/2012/07";
   "http://openadr.org/oadr-2.0b/2012/07/xmldsig-properties";
   "http://docs.oasis-open.org/ns/energyinterop/201110";
   "http://docs.oasis-open.org/ns/energyinterop/201110/payloads";
   "http://docs.oasis-open.org/ns/emix/2011/06";
   "http://docs.oasis-open.org/ns/emix/2011/06/power";
   "http://docs.oasis-open.org/ns/emix/2011/06/siscale";
   "urn:ietf:params:xml:ns:icalendar-2.0";
   "urn:ietf:params:xml:ns:icalendar-2.0:stream";
   "http://www.w3.org/2000/09/xmldsig#"].
Inductive named : string -> string -> Prop :=
| na_local n : name n -> named n n
| na_expanded u n : In u familiar -> name n -> named (expanded u n) n.
Definition attr_named (a b : string * string) : Prop := named (fst a) (fst b) /\ snd a = snd b.
(** [plainly e x]: the same, with familiar namespaces and without. *)
Inductive plainly : xml -> xml -> Prop :=
| pl m n attrs l t es cs : named m n -> Forall2 attr_named attrs l -> plainly_all es cs -> plainly (Elem m attrs t es) (Elem n l t cs)
with plainly_all : list xml -> list xml -> Prop :=
| pla_nil : plainly_all [] []
| pla_cons e x es xs : plainly e x -> plainly_all es xs -> plainly_all (e :: es) (x :: xs).

(** [shows x s]: [s] is a way to write [x], with all prefixes declared. *)
Definition shows (x : xml) (s : string) : Prop := exists r e, lays r s /\ means [] r e /\ plainly e x.
Definition shows_all (xs : list xml) (s : string) : Prop := exists rs es, lays_all rs s /\ means_all [] rs es /\ plainly_all es xs.

(** Texts that mean themselves inside XML: no mark-up, no control characters
    but tab and line feed, and not the one forbidden sequence. *)
Definition text_char (c : ascii) : Prop := c <> "<"%char /\ c <> "&"%char /\ (c = "009" \/ c = "010" \/ (32 <= N_of_ascii c)%N)%char.
Definition part_of (a s : string) : Prop := exists b c, s = b ++ a ++ c.
Definition unmarked (t : string) : Prop := all_chars text_char t /\ forall f, flattening t f -> ~ part_of "]]>" f.

(** Every text in the element is such. *)
Inductive unmarked_xml : xml -> Prop :=
| ux n attrs t cs : unmarked t -> (forall x, In x cs -> unmarked_xml x) -> unmarked_xml (Elem n attrs t cs).

(** The same for a text whose lines are kept. *)
Inductive clean_xml : xml -> Prop :=
| cx n attrs t cs : all_chars text_char t /\ ~ part_of "]]>" t -> (forall x, In x cs -> clean_xml x) -> clean_xml (Elem n attrs t cs).

(** The signature of a message, if any. *)
Definition signed_with (signature : string) (gs : list xml) : Prop :=
  (signature = "" /\ gs = []) \/
  exists g, gs = [g] /\ shows g signature /\ clean_xml g /\ exists n attrs t cs, g = Elem n attrs t cs /\ n <> "oadrSignedObject".

(** The same but for white space in elements that have no text. *)
Inductive spaced : xml -> xml -> Prop :=
| sp n attrs t t' cs cs' : t' = t \/ (t = "" /\ all_chars (fun c => In c ["009"; "010"; "032"]%char) t') -> spaced_all cs cs' -> spaced (Elem n attrs t cs) (Elem n attrs t' cs')
with spaced_all : list xml -> list xml -> Prop :=
| sp_nil : spaced_all [] []
| sp_cons x y xs ys : spaced x y -> spaced_all xs ys -> spaced_all (x :: xs) (y :: ys).
