(** C79: the text of a message is read as what was put in. *)
From Coq Require Import ZArith String Ascii List Bool Lia.
From Verif.Base Require Import Result Dict PyStr.
From Verif.Model Require Import Text DateTime Normalize Xml XmlText.
From Verif.Spec Require Import Calendar Instants TextSpec MessageSpec XmlTextSpec.
From Verif.Proofs Require Import TextProofs XmlTextProofs WrittenProofs.
From Verif.Properties Require Import P_Messages.
Import ListNotations.
Local Open Scope string_scope.

(** A message element; all of them have an attribute (the version). *)
Definition is_message (m : xml) (n : string) : Prop := exists a attrs t cs, m = Elem n (a :: attrs) t cs /\ name n.

(** What the sender writes, flattens and puts in the envelope is read as the
    message that was meant. *)
Definition C79_statement (applies : xml -> Prop) : Prop :=
  forall num depth m n s signature gs, is_message m n -> applies m -> shows (signed_object_xml m) s -> signed_with signature gs ->
    parse_message num depth (create_text signature s) = match parse_payload num depth m with Ok d => Ok (n, d) | Raise e => Raise e end.
Definition C79_full : Prop := C79_statement (fun _ => True).

Lemma unmarked_nil : unmarked "".
Proof. split; [exact I|]. intros f F. apply flattening_flatten in F. subst f. vm_compute. intros (b & c & E). destruct b; discriminate. Qed.

Lemma name_not_at n : name n -> String.eqb n "@Id" = false.
Proof. intros [_ C]. apply String.eqb_neq. intros ->. destruct C as [C _]. vm_compute in C. intuition (congruence || discriminate). Qed.

Lemma payload_val n cs : cs <> [] -> to_val (Elem n [] "" cs) = VDict (fold_left (fun d c => push d (xml_name c) (to_val c)) cs []).
Proof. destruct cs; [contradiction|reflexivity]. Qed.

(** It is, if no text has mark-up in it. *)
Theorem C79_read_partial : C79_statement unmarked_xml.
Proof.
  intros num depth m n s signature gs (a & attrs & t & cs & -> & Nn) U S SG.
  destruct (read_envelope signature gs _ s S) as (y & R & V & X); [|exact SG|].
  { constructor; [apply unmarked_nil|]. intros x [<-|[]]. exact U. }
  unfold parse_message. rewrite R, X, V. change ("oadrPayload" =? "oadrPayload") with true. cbv iota.
  assert (O : to_val (signed_object_xml (Elem n (a :: attrs) t cs)) = VDict [("@Id", VStr "oadrSignedObject"); (n, to_val (Elem n (a :: attrs) t cs))]).
  { unfold signed_object_xml. change (to_val (Elem "oadrSignedObject" [("Id", "oadrSignedObject")] "" [Elem n (a :: attrs) t cs]))
      with (VDict (push [("@Id", VStr "oadrSignedObject")] n (to_val (Elem n (a :: attrs) t cs)))).
    unfold push, vget, vset. cbn [get]. rewrite (name_not_at n Nn). cbn [set]. rewrite (name_not_at n Nn). reflexivity. }
  assert (P : exists d, to_val (Elem "oadrPayload" [] "" (gs ++ [signed_object_xml (Elem n (a :: attrs) t cs)])) = VDict d /\
    vget "oadrSignedObject" d = Some (to_val (signed_object_xml (Elem n (a :: attrs) t cs)))).
  { set (object := signed_object_xml (Elem n (a :: attrs) t cs)) in *. assert (NM : xml_name object = "oadrSignedObject") by reflexivity. clearbody object.
    rewrite payload_val by (destruct gs; discriminate). eexists. split; [reflexivity|]. rewrite fold_left_app. cbn [fold_left]. rewrite NM.
    destruct SG as [[_ ->]|(g & -> & _ & _ & gn & gattrs & gt & gcs & -> & NE)].
    - reflexivity.
    - cbn [fold_left xml_name]. apply String.eqb_neq in NE. rewrite String.eqb_sym in NE. generalize (to_val (Elem gn gattrs gt gcs)). intros gv.
      unfold push. cbn [vget get]. unfold vset. cbn [set]. unfold vget. cbn [get]. rewrite NE. cbn [set]. repeat (rewrite NE || rewrite String.eqb_refl || cbn [get app]). reflexivity. }
  destruct P as (d & -> & ->). rewrite O. cbn [last_item rev app].
  destruct cs; cbn [to_val]; unfold parse_payload, items; cbn [to_val]; unfold bind; reflexivity.
Qed.
Print Assumptions C79_read_partial.

(** ** Texts that are safe *)
Lemma safe_unmarked s : safe s = true -> unmarked s.
Proof.
  intros H. assert (C : XmlTextSpec.all_chars (fun c => text_char c /\ c <> ">"%char) s).
  { induction s as [|c s IH]; [exact I|]. cbn [safe] in H. apply andb_prop in H as [Hc H]. split; [|now apply IH]. unfold safe_char in Hc.
    apply andb_prop in Hc as [Hc G]. apply andb_prop in Hc as [Hc L]. apply andb_prop in Hc as [Hc A]. apply N.leb_le in Hc.
    repeat split; try (intros ->; discriminate). right. now right. }
  split; [eapply all_chars_impl; [|exact C]; now intros c []|]. intros f F (b & c & E). apply (all_chars_flattening _ _ _ F) in C. subst f.
  rewrite !all_chars_app in C. destruct C as (_ & C & _). cbn [XmlTextSpec.all_chars] in C. intuition congruence.
Qed.
Fixpoint safe_xml (x : xml) : bool := match x with Elem _ _ t cs => safe t && forallb safe_xml cs end.
Lemma safe_xml_unmarked x : safe_xml x = true -> unmarked_xml x.
Proof.
  revert x. fix IH 1. intros [n attrs t cs] H. cbn [safe_xml] in H. apply andb_prop in H as [Ht H]. constructor; [now apply safe_unmarked|].
  induction cs as [|c cs IHc]; intros x I; [destruct I|]. cbn [forallb] in H. apply andb_prop in H as [Hc H]. destruct I as [<-|I]; [now apply IH|now apply IHc].
Qed.
Lemma str_of_Z_unmarked z : unmarked (str_of_Z z).
Proof. apply safe_unmarked, str_of_Z_safe. Qed.

Lemma unmarked_leaf n t : unmarked t -> unmarked_xml (leaf n t).
Proof. intros U. constructor; [exact U|]. intros x []. Qed.
Lemma unmarked_node n cs : Forall unmarked_xml cs -> unmarked_xml (node n cs).
Proof. intros F. constructor; [apply unmarked_nil|]. now apply Forall_forall. Qed.
Lemma unmarked_opt {A} (f : A -> xml) o : good (fun a => unmarked_xml (f a)) o -> Forall unmarked_xml (opt f o).
Proof. destruct o; intros H; constructor; auto. Qed.

(** ** The answers of a VEN, as texts *)
Definition response_unmarked (r : event_response) : Prop := good unmarked (er_description r) /\ unmarked (er_request_id r) /\ unmarked (er_event_id r) /\ unmarked (er_opt_type r).
Lemma created_event_unmarked code description rs ven_id : unmarked description -> unmarked ven_id -> Forall response_unmarked rs -> unmarked_xml (created_event_xml code description rs ven_id).
Proof.
  intros D V F. constructor; [apply unmarked_nil|]. apply Forall_forall. constructor; [|constructor]. apply unmarked_node. constructor; [|constructor; [|constructor; [|constructor]]].
  - apply unmarked_node. constructor; [apply unmarked_leaf, str_of_Z_unmarked|]. constructor; [now apply unmarked_leaf|]. constructor; [apply unmarked_leaf, unmarked_nil|constructor].
  - apply unmarked_node. apply Forall_forall. intros x J. apply in_map_iff in J as (r & <- & J). rewrite Forall_forall in F. destruct (F r J) as (A & B & C & E).
    apply unmarked_node. repeat (apply Forall_app; split); [constructor; [|constructor]|apply unmarked_opt|].
    + apply unmarked_leaf, str_of_Z_unmarked.
    + destruct (er_description r); [now apply unmarked_leaf|exact I].
    + constructor; [now apply unmarked_leaf|]. constructor; [|constructor; [now apply unmarked_leaf|constructor]].
      apply unmarked_node. constructor; [now apply unmarked_leaf|]. constructor; [apply unmarked_leaf, str_of_Z_unmarked|constructor].
  - now apply unmarked_leaf.
Qed.

(** Names of messages. *)
Ltac a_name := split; [discriminate|]; cbn [XmlTextSpec.all_chars]; unfold name_char; repeat split; vm_compute; intuition discriminate.

Theorem C79_responses_partial : forall num n code description rs ven_id s signature gs,
  plain description -> plain ven_id -> Forall good_response rs -> unmarked description -> unmarked ven_id -> Forall response_unmarked rs ->
  shows (signed_object_xml (created_event_xml code description rs ven_id)) s -> signed_with signature gs ->
    exists p, parse_message num (5 + n) (create_text signature s) = Ok ("oadrCreatedEvent", p) /\
      holds (VDict p) ["ven_id"] (is_text ven_id) /\
      holds (VDict p) ["response"; "response_code"] (is_int code) /\ holds (VDict p) ["response"; "response_description"] (is_text description) /\
      match rs with
      | [] => at_path ["event_responses"] (VDict p) = Some VNone
      | _ => holds (VDict p) ["event_responses"] (is_list response_arrived rs)
      end.
Proof.
  intros num n code description rs ven_id s signature gs P1 P2 G U1 U2 F S SG.
  destruct (C16_responses_arrive num n code description rs ven_id P1 P2 G) as (p & P & H). exists p. split; [|exact H].
  rewrite (C79_read_partial num (5 + n) (created_event_xml code description rs ven_id) "oadrCreatedEvent" s signature gs); [now rewrite P| |now apply created_event_unmarked|exact S|exact SG].
  do 4 eexists. split; [reflexivity|]. a_name.
Qed.
Print Assumptions C79_responses_partial.

(** ** Events and reports, as texts *)
Theorem C79_events_partial : forall num n r request_id vtn_id es s signature gs, good_header r request_id vtn_id -> Forall (good_event num) es ->
  unmarked_xml (distribute_event_xml r request_id vtn_id es) -> shows (signed_object_xml (distribute_event_xml r request_id vtn_id es)) s -> signed_with signature gs ->
    exists p, parse_message num (9 + n) (create_text signature s) = Ok ("oadrDistributeEvent", p) /\
      header_arrived r request_id vtn_id (VDict p) /\ events_arrived (is_list signal_arrived_but_measurement) es (VDict p).
Proof.
  intros num n r request_id vtn_id es s signature gs H G U S SG. destruct (C15_all_but_measurements_partial num n r request_id vtn_id es H G) as (p & P & A). exists p. split; [|exact A].
  rewrite (C79_read_partial num (9 + n) (distribute_event_xml r request_id vtn_id es) "oadrDistributeEvent" s signature gs); [now rewrite P| |exact U|exact S|exact SG].
  do 4 eexists. split; [reflexivity|]. a_name.
Qed.
Print Assumptions C79_events_partial.

Theorem C79_reports_partial : forall num n request_id rs ven_id s signature gs, plain request_id -> good plain ven_id -> Forall (good_report num) rs ->
  unmarked_xml (update_report_xml request_id rs ven_id) -> shows (signed_object_xml (update_report_xml request_id rs ven_id)) s -> signed_with signature gs ->
    exists p, parse_message num (6 + n) (create_text signature s) = Ok ("oadrUpdateReport", p) /\
      holds (VDict p) ["request_id"] (is_text request_id) /\ holds_opt (VDict p) ["ven_id"] is_text ven_id /\ reports_arrived rs (VDict p).
Proof.
  intros num n request_id rs ven_id s signature gs P1 P2 G U S SG. destruct (C17_floats_arrive_partial num n request_id rs ven_id P1 P2 G) as (p & P & A). exists p. split; [|exact A].
  rewrite (C79_read_partial num (6 + n) (update_report_xml request_id rs ven_id) "oadrUpdateReport" s signature gs); [now rewrite P| |exact U|exact S|exact SG].
  do 4 eexists. split; [reflexivity|]. a_name.
Qed.
Print Assumptions C79_reports_partial.

(** ** Texts with mark-up *)
Definition ex_num : numbers := mk_numbers (fun _ => true) (fun _ => Ok 0%Z) (fun _ => "").

(** templates/oadrPoll.xml as it is rendered. *)
Definition poll_text (ven_id : string) : string :=
  "<oadr:oadrSignedObject xmlns:oadr=""http://openadr.org/oadr-2.0b/2012/07"" oadr:Id=""oadrSignedObject"">" ++ lf ++
  "  <oadr:oadrPoll ei:schemaVersion=""2.0b"" xmlns:ei=""http://docs.oasis-open.org/ns/energyinterop/201110"">" ++ lf ++
  "    <ei:venID>" ++ ven_id ++ "</ei:venID>" ++ lf ++
  "  </oadr:oadrPoll>" ++ lf ++
  "</oadr:oadrSignedObject>".
Ltac values := cbn [XmlTextSpec.all_chars]; unfold value_char; repeat split; simpl; intuition discriminate.
Ltac whites := first [exact I | split; [unfold blank; simpl; tauto|whites]].
(** The same as a tree of qualified names. *)
Definition poll_raw (ven_id : string) : xml :=
  Elem "oadr:oadrSignedObject" [("xmlns:oadr", "http://openadr.org/oadr-2.0b/2012/07"); ("oadr:Id", "oadrSignedObject")] ""
    [Elem "oadr:oadrPoll" [("ei:schemaVersion", "2.0b"); ("xmlns:ei", "http://docs.oasis-open.org/ns/energyinterop/201110")] "" [Elem "ei:venID" [] ven_id []]].
Lemma poll_laid ven_id : lays (poll_raw ven_id) (poll_text ven_id).
Proof.
  assert (N : forall n p, name n -> name p -> writes n (p ++ ":" ++ n)) by (intros; now constructor).
  assert (V : lays (Elem "ei:venID" [] ven_id []) ("<" ++ "ei:venID" ++ "" ++ ">" ++ ven_id ++ "</" ++ "ei:venID" ++ ">")).
  { apply (sh_text "venID"); [apply (N "venID" "ei"); a_name|constructor]. }
  unfold poll_text, poll_raw.
  assert (P : lays (Elem "oadr:oadrPoll" [("ei:schemaVersion", "2.0b"); ("xmlns:ei", "http://docs.oasis-open.org/ns/energyinterop/201110")] "" [Elem "ei:venID" [] ven_id []])
    ("<" ++ "oadr:oadrPoll" ++ " ei:schemaVersion=""2.0b"" xmlns:ei=""http://docs.oasis-open.org/ns/energyinterop/201110""" ++ ">" ++
    ((lf ++ "    ") ++ ("<" ++ "ei:venID" ++ "" ++ ">" ++ ven_id ++ "</" ++ "ei:venID" ++ ">") ++ (lf ++ "  ")) ++ "</" ++ "oadr:oadrPoll" ++ ">")).
  { apply (sh_node "oadrPoll"); [apply (N "oadrPoll" "oadr"); a_name| |].
    - apply (aa_attr "schemaVersion" "ei:schemaVersion" "2.0b" [("xmlns:ei", "http://docs.oasis-open.org/ns/energyinterop/201110")] " xmlns:ei=""http://docs.oasis-open.org/ns/energyinterop/201110""");
        [apply (N "schemaVersion" "ei"); a_name|values|].
      apply (aa_attr "ei" "xmlns:ei" "http://docs.oasis-open.org/ns/energyinterop/201110" [] ""); [apply (N "ei" "xmlns"); a_name|values|constructor].
    - apply sa_cons; [simpl; whites|simpl; tauto|exact V|]. apply sa_nil; [simpl; whites|simpl; tauto]. }
  assert (O : lays (poll_raw ven_id) ("<" ++ "oadr:oadrSignedObject" ++ " xmlns:oadr=""http://openadr.org/oadr-2.0b/2012/07"" oadr:Id=""oadrSignedObject""" ++ ">" ++
    ((lf ++ "  ") ++ ("<" ++ "oadr:oadrPoll" ++ " ei:schemaVersion=""2.0b"" xmlns:ei=""http://docs.oasis-open.org/ns/energyinterop/201110""" ++ ">" ++
    ((lf ++ "    ") ++ ("<" ++ "ei:venID" ++ "" ++ ">" ++ ven_id ++ "</" ++ "ei:venID" ++ ">") ++ (lf ++ "  ")) ++ "</" ++ "oadr:oadrPoll" ++ ">") ++ lf) ++ "</" ++ "oadr:oadrSignedObject" ++ ">")).
  { apply (sh_node "oadrSignedObject"); [apply (N "oadrSignedObject" "oadr"); a_name| |].
    - apply (aa_attr "oadr" "xmlns:oadr" "http://openadr.org/oadr-2.0b/2012/07" [("oadr:Id", "oadrSignedObject")] " oadr:Id=""oadrSignedObject"""); [apply (N "oadr" "xmlns"); a_name|values|].
      apply (aa_attr "Id" "oadr:Id" "oadrSignedObject" [] ""); [apply (N "Id" "oadr"); a_name|values|constructor].
    - apply sa_cons; [simpl; whites|simpl; tauto|exact P|]. apply sa_nil; [simpl; whites|simpl; tauto]. }
  rewrite !str_app_assoc in O. exact O.
Qed.
Lemma poll_shown ven_id : shows (signed_object_xml (poll_xml ven_id)) (poll_text ven_id).
Proof. eapply (shows_expand (poll_raw ven_id)); [apply poll_laid|reflexivity|now apply familiarb_spec|reflexivity]. Qed.
Lemma poll_message ven_id : is_message (poll_xml ven_id) "oadrPoll".
Proof. do 4 eexists. split; [reflexivity|]. a_name. Qed.
Lemma unsigned : signed_with "" []. Proof. left. auto. Qed.

(** A VEN whose id has an ampersand in it: its messages are not XML. *)
Theorem C79_ampersand_refuted : ~ C79_full.
Proof.
  intros F. specialize (F ex_num 2%nat _ _ _ _ _ (poll_message "R&D") I (poll_shown "R&D") unsigned). vm_compute in F. discriminate F.
Qed.
Print Assumptions C79_ampersand_refuted.

(** A text that was escaped by the user arrives as another text. *)
Theorem C79_entity_refuted : exists p, parse_message ex_num 2 (create_text "" (poll_text "a&lt;b")) = Ok ("oadrPoll", p) /\ ~ holds (VDict p) ["ven_id"] (is_text "a&lt;b").
Proof. eexists. split; [vm_compute; reflexivity|]. intros (x & A & B). vm_compute in A. injection A as <-. discriminate B. Qed.
Print Assumptions C79_entity_refuted.

(** A text can bring elements of its own: another VEN id besides the own. *)
Theorem C79_injection_refuted : exists v p, parse_message ex_num 2 (create_text "" (poll_text v)) = Ok ("oadrPoll", p) /\ at_path ["ven_id"] (VDict p) = Some (VList [VStr "mine"; VStr "other"]).
Proof. exists "mine</ei:venID><ei:venID>other". eexists. split; vm_compute; reflexivity. Qed.
Print Assumptions C79_injection_refuted.

Example C79_example : unmarked_xml (poll_xml "ven 1") /\ shows (signed_object_xml (poll_xml "ven 1")) (poll_text "ven 1") /\
  parse_message ex_num 2 (create_text "" (poll_text "ven 1")) = Ok ("oadrPoll", [("ven_id", VStr "ven 1")]) /\
  unmarked_xml (distribute_event_xml None "r1" "vtn" [sample_event "e1" [sample_signal "s1" (Some sample_measurement); sample_signal "s2" None]]).
Proof.
  split; [now apply safe_xml_unmarked|]. split; [apply poll_shown|]. split; [vm_compute; reflexivity|]. apply safe_xml_unmarked. vm_compute. reflexivity.
Qed.
