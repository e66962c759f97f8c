(** C85: prefixes do not matter, namespaces do. *)
From Coq Require Import ZArith String Ascii List Bool Lia.
From Verif.Base Require Import Result Dict PyStr.
From Verif.Model Require Import Text Normalize Xml XmlText.
From Verif.Spec Require Import TextSpec XmlTextSpec.
From Verif.Proofs Require Import TextProofs XmlTextProofs.
From Verif.Properties Require Import P_Messages P_XmlText P_Damage.
Import ListNotations.
Local Open Scope string_scope.

(** The prefix xml needs no declaration. *)
Definition outside : list (string * string) := [("xml", "http://www.w3.org/XML/1998/namespace")].

Lemma alike_expand : (forall r y, alike r y -> forall sc e, expand sc y = Some e -> exists e', expand sc r = Some e') /\
  (forall rs ys, alikes rs ys -> forall sc es, all_some (expand sc) ys = Some es -> exists es', all_some (expand sc) rs = Some es').
Proof.
  apply alike_mutual.
  - intros n attrs t t' cs cs' _ _ IH sc e H. cbn [expand] in H |- *. destruct (declarations attrs) as [ds|]; [|discriminate]. cbv zeta in *. destruct (element_name (ds ++ sc)%list n) as [m|]; [|discriminate].
    destruct (attribute_names (ds ++ sc)%list attrs) as [l|]; [|discriminate]. destruct (all_some (expand (ds ++ sc)%list) cs') as [es|] eqn:E; [|discriminate]. destruct (IH _ _ E) as (es' & ->).
    destruct (_ && _); [|discriminate]. now eexists.
  - intros sc es _. now exists [].
  - intros x y xs ys _ IHx _ IHs sc es H. cbn [all_some] in H |- *. destruct (expand sc y) as [e|] eqn:E; [|discriminate]. destruct (IHx _ _ E) as (e' & ->).
    fold (all_some (expand sc) xs). fold (all_some (expand sc) ys) in H. destruct (all_some (expand sc) ys) as [l|] eqn:F; [|discriminate]. destruct (IHs _ _ F) as (l' & ->). now eexists.
Qed.
Lemma texts_clean x : texts_are (fun t => all_chars text_char t /\ ~ part_of "]]>" t) x -> clean_xml x.
Proof. revert x. fix IH 2. intros x [n attrs t cs U H]. constructor; [exact U|]. induction H as [|y ys H F IHF]; intros z []; [subst; now apply IH|now apply IHF]. Qed.
Lemma read_laid r s : lays r s -> clean_xml r -> exists y, alike r y /\ read_raw s = Some y.
Proof.
  intros L C. destruct (proj1 read_lays _ _ L) as (y & toks & A & LX & BU); [now apply clean_lexable, clean_texts|]. exists y. split; [now apply (proj1 spaced_alike)|]. unfold read_raw.
  specialize (LX 0%nat ""). rewrite str_app_nil in LX. rewrite LX. change (lex "" (Content 0)) with (Some (@nil token)). cbn [then_ option_map]. specialize (BU [] [] None (fun _ => eq_refl)). exact BU.
Qed.

(** A text is refused as XML exactly if some name in it has no meaning: if a
    prefix is not declared, for instance, or an attribute is given twice. *)
Theorem C85_meaningless : forall r s, lays r s -> clean_xml r -> (refused s <-> ~ exists e, means outside r e).
Proof.
  intros r s L C. destruct (read_laid r s L C) as (y & A & R). split.
  - intros F (e & M). specialize (F ex_num 0%nat). apply (proj1 alike_means _ _ A) in M as (e' & M & _). unfold parse_message, read_xml, read_expanded in F. rewrite R in F.
    change outer_scope with outside in F. rewrite (proj1 means_expand _ _ _ M) in F. cbn [option_map] in F. destruct (xml_name (plain_xml e') =? "oadrPayload"); [|discriminate F].
    repeat match type of F with match ?x with _ => _ end = _ => destruct x; try discriminate F end.
  - intros N num depth. unfold parse_message, read_xml, read_expanded. rewrite R. destruct (expand outer_scope y) as [e|] eqn:E; [|reflexivity]. elim N.
    destruct (proj1 alike_expand r y A _ _ E) as (e' & E'). exists e'. now apply (proj1 expand_means _ _ L).
Qed.
Print Assumptions C85_meaningless.

(** Whatever prefixes two senders choose, and whichever of the namespaces of
    OpenADR they use: the same elements are the same message. *)
Theorem C85_prefixes : forall r r' e e' x s s' num depth, lays r s -> lays r' s' -> means outside r e -> means outside r' e' -> plainly e x -> plainly e' x -> clean_xml x ->
  parse_message num depth s = parse_message num depth s'.
Proof.
  assert (G : forall r e x s, lays r s -> means outside r e -> plainly e x -> clean_xml x -> exists y, read_xml s = Some y /\ to_val y = to_val x /\ xml_name y = xml_name x).
  { intros r e x s L M P C. assert (Cr : clean_xml r) by (apply texts_clean; eapply means_texts; [exact M|]; eapply plainly_texts; [exact P|]; now apply clean_texts).
    destruct (read_laid r s L Cr) as (y & A & R). destruct (proj1 alike_means _ _ A _ _ M) as (e' & M' & A'). destruct (proj1 alike_plainly _ _ A' _ P) as (x' & P' & A'').
    exists x'. unfold read_xml, read_expanded. rewrite R. change outer_scope with outside. rewrite (proj1 means_expand _ _ _ M'). cbn [option_map]. rewrite (proj1 plainly_plain _ _ P').
    split; [reflexivity|]. split; symmetry; [now apply alike_val|now apply alike_name]. }
  intros r r' e e' x s s' num depth L L' M M' P P' C. destruct (G r e x s L M P C) as (y & R & V & N). destruct (G r' e' x s' L' M' P' C) as (y' & R' & V' & N').
  unfold parse_message. now rewrite R, R', V, V', N, N'.
Qed.
Print Assumptions C85_prefixes.

Lemma no_colon_in n a b : all_chars name_char n -> n <> a ++ ":" ++ b.
Proof. intros C ->. rewrite all_chars_app in C. destruct C as [_ [C _]]. vm_compute in C. intuition (discriminate || congruence). Qed.

(** A message of some other protocol is none, also if its names are the same. *)
Theorem C85_foreign : forall r u n attrs t cs s num depth, lays r s -> clean_xml r -> means outside r (Elem (expanded u n) attrs t cs) -> name n -> ~ In u familiar ->
  parse_message num depth s = Raise KeyError.
Proof.
  intros r u n attrs t cs s num depth L C M [_ N] F. destruct (read_laid r s L C) as (y & A & R). destruct (proj1 alike_means _ _ A _ _ M) as (e' & M' & A'). inversion A' as [? ? ? t' ? cs' _ _]; subst.
  unfold parse_message, read_xml, read_expanded. rewrite R. change outer_scope with outside. rewrite (proj1 means_expand _ _ _ M'). cbn [option_map plain_xml xml_name].
  assert (E : plain_name (expanded u n) = u ++ ":" ++ n).
  { unfold plain_name, expanded. cbn [append strip_prefix]. rewrite Ascii.eqb_refl. change (String "}" n) with ("}" ++ n). rewrite split_brace_app by exact N.
    destruct (existsb (String.eqb u) namespaces) eqn:X; [|reflexivity]. elim F. apply existsb_exists in X as (v & J & X). apply String.eqb_eq in X as <-. cbn in J. cbn. tauto. }
  rewrite E. destruct (String.eqb_spec (u ++ ":" ++ n) "oadrPayload") as [K|K]; [|reflexivity]. symmetry in K. elim (no_colon_in "oadrPayload" u n); [|exact K].
  cbn [all_chars]. unfold name_char. repeat split; vm_compute; intuition discriminate.
Qed.
Print Assumptions C85_foreign.

(** ** Examples *)
(** A poll by another implementation: with other prefixes, the names of its
    messages in the default namespace. *)
Definition oadr_uri : string := "http://openadr.org/oadr-2.0b/2012/07".
Definition ei_uri : string := "http://docs.oasis-open.org/ns/energyinterop/201110".
Definition theirs (uri : string) : xml :=
  Elem "oadrPayload" [("xmlns", uri)] "" [Elem "oadrSignedObject" [("xmlns:x", ei_uri)] "" [Elem "oadrPoll" [("x:schemaVersion", "2.0b")] "" [Elem "x:venID" [] "ven 1" []]]].
Definition theirs_text (uri : string) : string :=
  "<oadrPayload xmlns=""" ++ uri ++ """><oadrSignedObject xmlns:x=""" ++ ei_uri ++ """><oadrPoll x:schemaVersion=""2.0b""><x:venID>ven 1</x:venID></oadrPoll></oadrSignedObject></oadrPayload>".
Ltac child := match goal with |- lays_all ?l ?b => let e := constr:(b) in replace b with ("" ++ b ++ "") by (cbn [append]; now rewrite ?str_app_nil); apply sa_cons; [exact I|exact I| |apply sa_nil; exact I] end.
Lemma theirs_laid uri : all_chars value_char uri -> lays (theirs uri) (theirs_text uri).
Proof.
  intros V.
  assert (P : lays (Elem "x:venID" [] "ven 1" []) "<x:venID>ven 1</x:venID>") by (apply (sh_text "venID" "x:venID" [] ""); [apply (wr_prefix "venID" "x"); a_name|constructor]).
  assert (Q : lays (Elem "oadrPoll" [("x:schemaVersion", "2.0b")] "" [Elem "x:venID" [] "ven 1" []]) "<oadrPoll x:schemaVersion=""2.0b""><x:venID>ven 1</x:venID></oadrPoll>").
  { apply (sh_node "oadrPoll" "oadrPoll" [("x:schemaVersion", "2.0b")] " x:schemaVersion=""2.0b""" _ "<x:venID>ven 1</x:venID>"); [constructor; a_name| |child; exact P].
    apply (aa_attr "schemaVersion" "x:schemaVersion" "2.0b" [] ""); [apply (wr_prefix "schemaVersion" "x"); a_name|values|constructor]. }
  assert (O : lays (Elem "oadrSignedObject" [("xmlns:x", ei_uri)] "" [Elem "oadrPoll" [("x:schemaVersion", "2.0b")] "" [Elem "x:venID" [] "ven 1" []]])
    ("<oadrSignedObject xmlns:x=""" ++ ei_uri ++ """><oadrPoll x:schemaVersion=""2.0b""><x:venID>ven 1</x:venID></oadrPoll></oadrSignedObject>")).
  { apply (sh_node "oadrSignedObject" "oadrSignedObject" [("xmlns:x", ei_uri)] (" xmlns:x=""" ++ ei_uri ++ """") _ "<oadrPoll x:schemaVersion=""2.0b""><x:venID>ven 1</x:venID></oadrPoll>"); [constructor; a_name| |child; exact Q].
    apply (aa_attr "x" "xmlns:x" ei_uri [] ""); [apply (wr_prefix "x" "xmlns"); a_name|unfold ei_uri; values|constructor]. }
  assert (T : lays (theirs uri) ("<" ++ "oadrPayload" ++ (" " ++ "xmlns" ++ "=""" ++ uri ++ """" ++ "") ++ ">" ++
    ("<oadrSignedObject xmlns:x=""" ++ ei_uri ++ """><oadrPoll x:schemaVersion=""2.0b""><x:venID>ven 1</x:venID></oadrPoll></oadrSignedObject>") ++ "</" ++ "oadrPayload" ++ ">")).
  { apply (sh_node "oadrPayload"); [constructor; a_name| |child; exact O]. apply (aa_attr "xmlns" "xmlns" uri [] ""); [constructor; a_name|exact V|constructor]. }
  unfold theirs_text. rewrite !str_app_assoc in T. cbn [append] in T |- *. exact T.
Qed.
Lemma theirs_clean uri : clean_xml (theirs uri).
Proof.
  assert (E : all_chars text_char "" /\ ~ part_of "]]>" "") by (split; [exact I|]; intros (b & c & E); destruct b; discriminate).
  assert (V : all_chars text_char "ven 1" /\ ~ part_of "]]>" "ven 1").
  { split; [cbn [all_chars]; unfold text_char; repeat split; try discriminate; right; right; vm_compute; discriminate|]. intros (b & c & H). repeat (destruct b as [|? b]; [discriminate H|]; cbn [append] in H; first [discriminate H|injection H as _ H]). }
  do 3 (constructor; [exact E|]; intros ? [<-|[]]). constructor; [exact V|intros ? []].
Qed.
Definition poll_object : xml := Elem "oadrPayload" [] "" [Elem "oadrSignedObject" [] "" [Elem "oadrPoll" [("schemaVersion", "2.0b")] "" [leaf "venID" "ven 1"]]].
Example C85_example :
  lays (theirs oadr_uri) (theirs_text oadr_uri) /\ clean_xml (theirs oadr_uri) /\ (exists e, means outside (theirs oadr_uri) e /\ plainly e poll_object) /\
  parse_message ex_num 2 (theirs_text oadr_uri) = Ok ("oadrPoll", [("ven_id", VStr "ven 1")]) /\
  lays (theirs "urn:other") (theirs_text "urn:other") /\ (exists attrs t cs, means outside (theirs "urn:other") (Elem (expanded "urn:other" "oadrPayload") attrs t cs)) /\ ~ In "urn:other" familiar /\
  parse_message ex_num 2 (theirs_text "urn:other") = Raise KeyError.
Proof.
  split; [apply theirs_laid; unfold oadr_uri; values|]. split; [apply theirs_clean|]. split; [|split; [vm_compute; reflexivity|split; [apply theirs_laid; values|split; [|split; [|vm_compute; reflexivity]]]]].
  - assert (L : lays (theirs oadr_uri) (theirs_text oadr_uri)) by (apply theirs_laid; unfold oadr_uri; values). eexists. split; [apply (proj1 expand_means _ _ L); vm_compute; reflexivity|].
    repeat (constructor; try (apply (na_expanded "http://openadr.org/oadr-2.0b/2012/07"); [cbn; tauto|a_name]); try (apply (na_expanded "http://docs.oasis-open.org/ns/energyinterop/201110"); [cbn; tauto|a_name])).
  - assert (L : lays (theirs "urn:other") (theirs_text "urn:other")) by (apply theirs_laid; values). do 3 eexists. apply (proj1 expand_means _ _ L). vm_compute. reflexivity.
  - cbn. intuition discriminate.
Qed.
