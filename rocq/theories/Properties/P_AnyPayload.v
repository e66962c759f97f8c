(** C86: whatever the payload, the message that the templates print is read as
    XML again. *)
From Coq Require Import ZArith String Ascii List Bool Lia.
From Verif.Base Require Import Result Dict PyStr.
From Verif.Model Require Import Text Duration DateTime Normalize Xml XmlText Jinja.
From Verif.Spec Require Import TextSpec XmlTextSpec PayloadSpec PayloadsAnySpec.
From Verif.Proofs Require Import TextProofs XmlTextProofs WrittenProofs TemplateProofs PayloadProofs MeantProofs AnyProofs.
From Verif.Properties Require Import P_XmlText P_Written P_Templates.
Import ListNotations.
Local Open Scope string_scope.

(** Python's text of a dict with a number in it. *)
Definition prints_indices (other : val -> string) : Prop := forall i, unmarked (other (VDict [("index0", VInt i)])).

(** A payload from anywhere, with any entries: either create_message raises an
    exception, or the other side parses a message of this kind. *)
Definition read_back (num : numbers) (depth : nat) (kind t : string) : Prop :=
  (exists x, read_xml t = Some x) /\ exists cs, parse_message num depth t = match parse_payload num depth (Elem kind [("schemaVersion", "2.0b")] "" cs) with Ok d => Ok (kind, d) | Raise e => Raise e end.
Definition C86_statement (applies : string -> vdict -> Prop) : Prop :=
  forall other sign kind payload num depth t, In kind message_kinds -> applies kind payload -> prints_indices other -> unmarked_payload other payload -> signs sign ->
    create_message other sign kind payload = Ok t -> read_back num depth kind t.
Definition C86_full : Prop := C86_statement (fun _ _ => True).

(** ** The texts in the elements *)
Lemma flattening_length s f : flattening s f -> (String.length f <= String.length s)%nat.
Proof. induction 1; rewrite ?str_length_app; cbn [String.length]; rewrite ?str_length_app; lia. Qed.
Lemma character_unmarked s c : unmarked s -> In c (list_ascii_of_string s) -> unmarked (String c "").
Proof.
  intros [A _] J. assert (T : text_char c).
  { clear - A J. induction s as [|b s IH]; [destruct J|]. destruct A as [A1 A2]. destruct J as [<-|J]; [exact A1|now apply IH]. }
  split; [now split|]. intros f F (b & d & ->). apply flattening_length in F. rewrite !str_length_app in F. cbn [String.length] in F. lia.
Qed.
Lemma shown_unmarked other v : (forall w, v = Some w -> unmarked_value other w) -> unmarked (show other v).
Proof.
  intros H. destruct v as [v|]; [|now apply safe_unmarked]. specialize (H v eq_refl). destruct v as [| []| | | | | | |]; cbn [show unmarked_value] in *; try exact H; try (now apply safe_unmarked).
  - apply safe_unmarked, str_of_Z_safe.
  - apply H.
Qed.
Lemma all_safe kind : In kind message_kinds -> forallb (item_texts safe) (items_of (kind ++ ".xml")) = true.
Proof. cbn. intros H. repeat (destruct H as [<-|H]; [vm_compute; reflexivity|]). destruct H. Qed.
Lemma any_unmarked other kind payload xs : In kind message_kinds -> prints_indices other -> unmarked_payload other payload ->
  trees other (items_of (kind ++ ".xml")) payload = Good xs -> Forall (texts_are unmarked) xs.
Proof.
  intros K L U. apply concat_texts. intros i ys J. apply (tree_texts other (unmarked_value other) safe); try (intros; exact I).
  - intros t s E. apply safe_unmarked. replace s with (show_time t); [apply show_time_safe|]. unfold show_time. now rewrite E.
  - intros b. apply safe_unmarked, show_bool_safe.
  - intros d. apply safe_unmarked, timedelta_safe.
  - apply shown_unmarked.
  - exact safe_unmarked.
  - exact character_unmarked.
  - intros d k v [H _] I. exact (H k v I).
  - intros i'. split; [intros k w [E|[]]; injection E as <- _; now apply safe_unmarked|apply L].
  - apply shown_unmarked.
  - exact safe_unmarked.
  - reflexivity.
  - exact U.
  - exact (proj1 (forallb_forall _ _) (all_safe kind K) i J).
Qed.

(** ** The property *)
Lemma kind_name kind : In kind message_kinds -> name kind.
Proof. intros H. apply name_ok_name. revert H. cbn. intros H. repeat (destruct H as [<-|H]; [vm_compute; reflexivity|]). destruct H. Qed.
(** With proper measurements, and without the entries whose templates are
    broken or missing. *)
Theorem C86_read_back_partial : C86_statement presentable.
Proof.
  intros other sign kind payload num depth t K P L U G C. pose proof (any_trees other kind payload P) as NB. destruct (all_framed kind K) as [F O].
  pose proof (any_unmarked other kind payload) as T. rewrite C84_created in C. destruct (render_template other (kind ++ ".xml") payload) as [s|e] eqn:R; [|discriminate]. injection C as <-.
  destruct (trees other (items_of (kind ++ ".xml")) payload) as [xs|e|] eqn:E; [| |contradiction].
  - destruct (render_items other _ _ _ O E) as (s' & S & R'). rewrite R in R'. injection R' as <-.
    specialize (T xs K L U eq_refl). destruct (framed_tree other kind _ payload xs F E) as (cs & ->). destruct (around _ _ S) as (s' & S' & FL).
    destruct (G (flatten_xml s)) as (gs & SG). unfold create_text. rewrite FL. rewrite <- FL at 1. fold (create_text (signature_text (sign (flatten_xml s))) s').
    assert (UX : unmarked_xml (Elem kind message_attrs "" cs)).
    { inversion T as [|? ? T1 _]; subst. inversion T1 as [? ? ? ? _ T2]; subst. inversion T2; subst. now apply unmarked_texts. }
    split.
    + destruct (read_envelope (signature_text (sign (flatten_xml s))) gs _ s' S') as (y & Y & _); [|exact SG|now exists y].
      constructor; [apply unmarked_nil|]. intros x [<-|[]]. exact UX.
    + exists cs. apply (C79_read_partial num depth _ kind s' _ gs); [|exact UX|exact S'|exact SG]. do 4 eexists. split; [reflexivity|now apply kind_name].
  - rewrite (failing_items other _ _ _ O E) in R. discriminate.
Qed.
Print Assumptions C86_read_back_partial.

(** ** The broken template

    An opt with a target that has EMIX interfaces: parts/emixInterface.xml
    opens an element that it does not close, so nobody can read the message,
    and the sender is not told. *)
Definition plain_other (v : val) : string := "{}".
Definition no_signature (s : string) : option string := None.
Definition opt_payload (target : vdict) : vdict :=
  [("opt_id", VStr "o1"); ("opt_type", VStr "optOut"); ("opt_reason", VStr "economic"); ("ven_id", VStr "v1"); ("request_id", VStr "r1");
   ("created_date_time", VStr "2024-01-01T00:00:00Z"); ("targets", VList [VDict target])].
Definition emix_target : vdict := [("emix_interfaces", VList [VStr "i1"]); ("emix_interface", VList [VStr "i1"])].
Lemma plain_unmarked payload : (forall k v w, In (k, v) payload -> within v w -> match w with VStr s => safe s = true | VFloat t => safe t = true | VDict d => forall k w, In (k, w) d -> safe k = true | _ => True end) ->
  unmarked_payload plain_other payload.
Proof.
  intros H k v w J W. specialize (H k v w J W). destruct w; cbn [unmarked_value]; try exact I; try (now apply safe_unmarked).
  split; [intros k' w J'; apply safe_unmarked; now apply (H k' w)|now apply safe_unmarked].
Qed.
Fixpoint safe_value (v : val) : bool :=
  match v with
  | VStr s | VFloat s => safe s
  | VDict d => forallb (fun x => safe (fst x) && safe_value (snd x)) d
  | VList l => forallb safe_value l
  | _ => true
  end.
Lemma safe_within v w : within v w -> safe_value v = true -> safe_value w = true.
Proof.
  induction 1 as [v|d k v w J W IH|l v w J W IH]; intros S; [exact S| |]; apply IH; cbn [safe_value] in S; apply (proj1 (forallb_forall _ _) S) in J; [|exact J].
  cbn [fst snd] in J. now apply andb_prop in J.
Qed.
Lemma safe_payload payload : safe_value (VDict payload) = true -> unmarked_payload plain_other payload.
Proof.
  intros S. apply plain_unmarked. intros k v w J W. assert (Sw : safe_value w = true) by (apply (safe_within (VDict payload)); [now apply (within_dict payload k v)|exact S]).
  destruct w; try exact I; try exact Sw. intros k' w J'. apply (proj1 (forallb_forall _ _) Sw) in J'. cbn [fst snd] in J'. now apply andb_prop in J'.
Qed.
Lemma indices_plain : prints_indices plain_other. Proof. intros i. now apply safe_unmarked. Qed.
Lemma unsigned_signs : signs no_signature. Proof. intros s. exists []. now left. Qed.
Theorem C86_unclosed_refuted : ~ C86_full.
Proof.
  intros F. assert (C : exists t, create_message plain_other no_signature "oadrCreateOpt" (opt_payload emix_target) = Ok t /\ read_xml t = None).
  { eexists. split; vm_compute; reflexivity. }
  destruct C as (t & C & P). destruct (F plain_other no_signature "oadrCreateOpt" (opt_payload emix_target) ex_num 9%nat t) as ((x & E) & _);
    [cbn; tauto|exact I|exact indices_plain|now apply safe_payload|exact unsigned_signs|exact C|].
  rewrite P in E. discriminate.
Qed.
Print Assumptions C86_unclosed_refuted.

(** A payload from the user with entries of unexpected types, and one without
    the entries of its kind; both are read back. *)
Definition odd_payload : vdict := [("ven_id", VList [VInt 1; VNone]); ("request_id", VDict [("a", VBool true)]); ("response", VStr "ok"); ("further", VFloat "1.5")].
Example C86_example : presentable "oadrCreatedEvent" odd_payload /\ unmarked_payload plain_other odd_payload /\ prints_indices plain_other /\ signs no_signature /\
  (exists t, create_message plain_other no_signature "oadrCreatedEvent" odd_payload = Ok t /\ exists d, parse_message ex_num 9 t = Ok ("oadrCreatedEvent", d)) /\
  presentable "oadrCreateOpt" (opt_payload [("ven_id", VStr "v2")]) /\ unmarked_payload plain_other (opt_payload [("ven_id", VStr "v2")]) /\
  (exists t, create_message plain_other no_signature "oadrCreateOpt" (opt_payload [("ven_id", VStr "v2")]) = Ok t /\ exists d, parse_message ex_num 9 t = Ok ("oadrCreateOpt", d)).
Proof.
  split; [left; cbn; tauto|]. split; [now apply safe_payload|]. split; [exact indices_plain|]. split; [exact unsigned_signs|].
  split; [eexists; split; [vm_compute; reflexivity|eexists; vm_compute; reflexivity]|].
  split; [right; split; [cbn; tauto|]|split; [now apply safe_payload|eexists; split; [vm_compute; reflexivity|eexists; vm_compute; reflexivity]]].
  intros d W. inversion W as [|? ? ? ? J W'|]; subst; [split; [now left|split; [now left|left; now left]]|].
  cbn in J. repeat (destruct J as [J|J]; [injection J as <- <-; inversion W' as [|? ? ? ? J1 W1|? ? ? J1 W1]; subst|]); try solve [destruct J].
  destruct J1 as [<-|[]]. inversion W1 as [|? ? ? ? J2 W2|]; subst; [split; [now left|split; [now left|left; now left]]|].
  destruct J2 as [J2|[]]. injection J2 as <- <-. inversion W2.
Qed.
