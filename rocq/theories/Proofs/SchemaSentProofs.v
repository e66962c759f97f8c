(** The schema check of the messages that are sent. *)
From Coq Require Import ZArith String Ascii List Bool Lia.
From Verif.Base Require Import Result Dict PyStr.
From Verif.Model Require Import Duration DateTime Text Measurements Normalize Schema SchemaTypes Xml XmlParty XmlOpt XmlText Jinja Payloads.
From Verif.Spec Require Import Instants MessageSpec XmlTextSpec WrittenSpec PayloadSpec PayloadsAnySpec AcceptedSpec.
From Verif.Proofs Require Import TextProofs XmlTextProofs WrittenProofs TemplateProofs PayloadProofs MeantProofs SchemaValueProofs QualifyProofs SchemaTreeProofs SchemaMessageProofs.
From Verif.Properties Require Import P_XmlText P_Written P_Templates.
Import ListNotations.
Local Open Scope string_scope.

(** ** Texts *)
Lemma single_spec t : single_line t -> one_line t.
Proof.
  unfold single_line, one_line. induction t as [|c t IH]; [reflexivity|]. intros [A B]. cbn [no_char]. rewrite (IH B), andb_true_r. apply negb_true_iff. now apply Ascii.eqb_neq.
Qed.
Lemma safe_single t : safe t = true -> single_line t.
Proof.
  unfold single_line. induction t as [|c t IH]; [intros _; exact I|]. cbn [safe each]. intros H. apply andb_prop in H as [A B]. split; [|now apply IH]. intros ->. discriminate.
Qed.
Lemma fine_texts (T N : string -> Prop) x : T "" -> fine T N x -> texts_are T x.
Proof.
  intros E. revert x. fix IH 2. intros x [n t _ Ht|n cs _ F]; [constructor; [exact Ht|constructor]|]. constructor; [exact E|].
  induction F as [|y ys H F IHF]; constructor; [now apply IH|exact IHF].
Qed.
Lemma sendable_texts (T : string -> Prop) n m texts names : (forall s, safe s = true -> T s) -> sendable n m texts names -> Forall T texts -> texts_are T (signed_object_xml m).
Proof.
  intros HT S F. destruct (sendable_fine T (fun _ => True) HT (fun _ _ => I) n m texts names S F) as (cs & -> & C).
  - clear. induction names; constructor; auto.
  - assert (T "") by now apply HT. repeat constructor; auto. eapply Forall_impl; [|exact C]. intros x. now apply fine_texts.
Qed.
Lemma qualify_texts P pu x : texts_are P x -> texts_are P (qualify pu x).
Proof.
  revert pu x. fix IH 3. intros pu x [n attrs t cs H F]. cbn [qualify]. constructor; [exact H|]. generalize (uri_of pu n) as u. intros u. induction F as [|y ys Hy F IHF]; cbn [map]; constructor; [now apply IH|exact IHF].
Qed.

(** ** The text and its tree, with namespaces *)
Lemma rendered_qualified other ns n p m texts names times further : meant ns n p m texts names times -> beside n p further -> no_measurements further ->
  Forall good_time times -> Forall name names -> Forall (fun x => usual_prefix (ns x)) names -> Forall (known ns) names ->
  exists s r t, render_template other (n ++ ".xml") (p ++ further)%list = Ok s /\ lays r t /\ means [] r (qualify "" (signed_object_xml m)) /\ flatten_xml s = flatten_xml t.
Proof.
  intros M B NM T N P K.
  assert (TR : trees other (items_of (n ++ ".xml")) (p ++ further)%list = Good [signed_object_xml m]).
  { eapply meant_trees; [exact M|exact B| |].
    - eapply Forall_impl; [|exact T]. exact good_printable.
    - eapply both_all; [exact N|exact P|]. intros x Nx Px. split; [now apply name_nameb|]. destruct Px as [->| ->]; reflexivity. }
  pose proof (meant_names ns n p m texts names times M) as O. pose proof (meant_placed ns n p m texts names times M) as PL.
  pose proof (placed_trees other (items_of (n ++ ".xml")) (p ++ further)%list "" (meant_proper_further ns n p m texts names times further M K NM) PL) as PT.
  revert TR O PT. unfold items_of, render_template. destruct (get_template (n ++ ".xml")) as [tl|]; [|intros H; destruct (trees_bad _ _ _ H)].
  destruct (scan 600 tl) as [[is [|r0 rs0]]|] eqn:E; cbn [whole]; intros TR O PT; try (destruct (trees_bad _ _ _ TR)).
  pose proof (scan_whole other 600 tl is (p ++ further)%list E) as W. pose proof (trees_same other is [] (p ++ further)%list bound_nil O) as Q.
  unfold outcome_of, same_outcome in *. rewrite TR in Q. destruct Q as (rs & Er & es & X & _). rewrite Er in W. destruct W as (s & L & R).
  pose proof (PT _ _ _ TR Er X) as Ees. assert (Mn : means_all [] rs es) by (exact (proj2 expand_means rs s L [] es X)). subst es. cbn [map] in Mn.
  inversion Mn as [|r e rs1 es1 M1 M2]; subst. inversion M2; subst. inversion L as [|w r1 t cs b Wb Wb' S Bq]; subst. inversion Bq as [v V0 V'|]; subst. exists (w ++ t ++ b), r, t.
  split; [exact R|]. split; [exact S|]. split; [exact M1|]. rewrite (flatten_blank_front w _ Wb). now apply flatten_blank_back.
Qed.

(** ** The envelope *)
Definition ds_name : string := "{http://www.w3.org/2000/09/xmldsig#}Signature".
Definition envelope_of (es : list xml) (pu : string) (m : xml) : xml := Elem (expanded "http://openadr.org/oadr-2.0b/2012/07" "oadrPayload") [] "" (es ++ [qualify pu (signed_object_xml m)]).
Lemma envelope_valid uri foreign lenient es m : es = [] \/ (exists attrs t cs, es = [Elem ds_name attrs t cs] /\ foreign (Elem ds_name attrs t cs) = true) ->
  (validL uri foreign lenient (envelope_of es "" m) oadr_oadrPayload_element = true <-> V uri foreign lenient "" (signed_object_xml m) oadr_oadrSignedObject_element).
Proof.
  intros [->|(attrs & t & cs & -> & F)]; unfold envelope_of, oadr_oadrPayload_element, V.
  - cbn [app validL existsb attributes forallb blank_text list_ascii_of_string andb map]. set (q := qualify "" (signed_object_xml m)). set (ob := oadr_oadrSignedObject_element).
    change (xml_name q) with (in_oadr "oadrSignedObject"). cbn -[validL ob q]. now rewrite !andb_true_r.
  - cbn [app]. set (q := qualify "" (signed_object_xml m)). set (ob := oadr_oadrSignedObject_element). set (g := Elem ds_name attrs t cs) in *.
    assert (G : validL uri foreign lenient g Foreign = true) by (unfold g; cbn [validL]; fold g; rewrite F; now destruct (existsb instance_attribute attrs)).
    assert (X : validL uri foreign lenient (Elem (expanded "http://openadr.org/oadr-2.0b/2012/07" "oadrPayload") [] "" [g; q]) (Complex [] [SchemaTypes.opt (in_ds "Signature") Foreign; SchemaTypes.one (in_oadr "oadrSignedObject") ob])
      = children [SchemaTypes.opt (in_ds "Signature") Foreign; SchemaTypes.one (in_oadr "oadrSignedObject") ob] [(ds_name, validL uri foreign lenient g); (in_oadr "oadrSignedObject", validL uri foreign lenient q)]) by reflexivity.
    rewrite X. cbn -[validL ob q g]. rewrite G. cbn [andb]. now rewrite !andb_true_r.
Qed.

(** ** All together *)
Lemma known_known n : In n (map fst Measurements.measurement_namespaces) -> known namespace n.
Proof. cbn. intros H. repeat (destruct H as [<-|H]; [reflexivity|]). destruct H. Qed.
Lemma sent_read foreign other sign n p m texts names times further : meant namespace n p m texts names times -> beside n p further -> no_measurements further ->
  Forall good_time times -> Forall (fun x => In x (map fst Measurements.measurement_namespaces)) names -> Forall unmarked texts -> Forall single_line texts -> signs_validly foreign sign ->
  exists t y es, create_message other sign n (p ++ further)%list = Ok t /\ read_expanded t = Some y /\ spaced (envelope_of es "" m) y /\
    (es = [] \/ (exists attrs t cs, es = [Elem ds_name attrs t cs] /\ foreign (Elem ds_name attrs t cs) = true)).
Proof.
  intros M B NM T K U SL [_ SG].
  assert (KN : Forall name names) by (eapply Forall_impl; [|exact K]; intros x Ix; now apply known_names).
  assert (KP : Forall (fun x => usual_prefix (namespace x)) names) by (eapply Forall_impl; [|exact K]; intros x Ix; now apply known_names).
  assert (KK : Forall (known namespace) names) by (eapply Forall_impl; [|exact K]; exact known_known).
  destruct (rendered_qualified other namespace n p m texts names times further M B NM T KN KP KK) as (s & r & t & R & L & Mn & F).
  pose proof (meant_sendable _ _ _ _ _ _ _ M) as SE.
  assert (TU : texts_are unmarked r) by (eapply (proj1 (means_texts unmarked)); [exact Mn|]; eapply qualify_texts, sendable_texts; [exact safe_unmarked|exact SE|exact U]).
  assert (TS : texts_are one_line (qualify "" (signed_object_xml m))).
  { eapply qualify_texts, sendable_texts; [|exact SE|eapply Forall_impl; [|exact SL]; exact single_spec]. intros z Z. now apply single_spec, safe_single. }
  assert (SA : exists es, signed_as (signature_text (sign (flatten_xml s))) es /\ (es = [] \/ (exists attrs t cs, es = [Elem ds_name attrs t cs] /\ foreign (Elem ds_name attrs t cs) = true))).
  { destruct (SG (flatten_xml s)) as [->|(g & rg & attrs & tx & cs & -> & Lg & Cg & Mg & Fg)].
    - exists []. split; [left; split; reflexivity|now left].
    - exists [Elem ds_name attrs tx cs]. split; [|right; now exists attrs, tx, cs]. right. exists rg, (Elem ds_name attrs tx cs). split; [reflexivity|]. split; [exact Lg|]. split; [exact Mg|]. now apply clean_texts. }
  destruct SA as (es & SA & ES). destruct (read_message_spaced _ r _ es t L Mn TU SA) as (y & e' & RE & SP & AL).
  exists (create_text (signature_text (sign (flatten_xml s))) s), y, es. split; [now rewrite C84_created, R|]. split; [unfold create_text in *; rewrite F in RE; rewrite F; exact RE|]. split; [|exact ES].
  eapply (proj1 spaced_trans); [|exact SP]. constructor; [now left|]. apply spaced_app; [|exact (proj1 alike_spaced _ _ AL TS)]. clear. induction es; constructor; [apply spaced_refl|assumption].
Qed.
Lemma sent_checked uri foreign other sign n p m texts names times further : meant namespace n p m texts names times -> beside n p further -> no_measurements further ->
  Forall good_time times -> Forall (fun x => In x (map fst Measurements.measurement_namespaces)) names -> Forall unmarked texts -> Forall single_line texts -> signs_validly foreign sign ->
  exists t, create_message other sign n (p ++ further)%list = Ok t /\
    (V uri foreign false "" (signed_object_xml m) oadr_oadrSignedObject_element -> exists x, validate_xml_schema uri foreign t = Ok x) /\
    ((exists x, validate_xml_schema uri foreign t = Ok x) -> V uri foreign true "" (signed_object_xml m) oadr_oadrSignedObject_element) /\
    ((forall x, validate_xml_schema uri foreign t <> Ok x) -> validate_xml_schema uri foreign t = Raise XMLSyntaxError).
Proof.
  intros M B NM T K U SL SG. destruct (sent_read foreign other sign n p m texts names times further M B NM T K U SL SG) as (t & y & es & C & R & SP & ES).
  exists t. split; [exact C|]. destruct (spaced_valid uri foreign (proj1 SG) _ _ _ SP payload_tolerant) as [V1 V2].
  assert (EV : validate_xml_schema uri foreign t = if validL uri foreign true y oadr_oadrPayload_element then Ok y else Raise XMLSyntaxError).
  { unfold validate_xml_schema, valid_document. rewrite R. rewrite <- (spaced_named _ _ SP). change (xml_name (envelope_of es "" m) =? in_oadr "oadrPayload") with true. cbv iota. now rewrite valid_lenient. }
  rewrite EV. split; [|split].
  - intros H. apply (envelope_valid uri foreign false es m ES) in H. apply V1 in H. rewrite H. now exists y.
  - intros (x & H). apply (envelope_valid uri foreign true es m ES). apply V2. destruct (validL uri foreign true y oadr_oadrPayload_element); [reflexivity|discriminate].
  - intros H. destruct (validL uri foreign true y oadr_oadrPayload_element); [now destruct (H y)|reflexivity].
Qed.

(** ** Every message has demands *)
Lemma meant_demands uri bare ns n p m texts names times : meant ns n p m texts names times -> exists cond, demands uri bare ns n p m texts names times cond.
Proof. destruct 1; eexists; constructor. Qed.
Lemma demands_meant uri bare ns n p m texts names times cond : demands uri bare ns n p m texts names times cond -> meant ns n p m texts names times.
Proof. destruct 1; constructor. Qed.
