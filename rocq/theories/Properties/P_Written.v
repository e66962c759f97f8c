(** C80: of all that users put in a message only texts can spoil it. *)
From Coq Require Import ZArith String Ascii List Bool Lia.
From Verif.Base Require Import Result Dict PyStr.
From Verif.Model Require Import Text DateTime Normalize Xml XmlParty XmlOpt XmlText.
From Verif.Spec Require Import MessageSpec PartySpec OptSpec XmlTextSpec WrittenSpec.
From Verif.Proofs Require Import XmlTextProofs WrittenProofs.
From Verif.Properties Require Import P_Messages P_Party P_Opts P_XmlText.
Import ListNotations.
Local Open Scope string_scope.

(** However the message is written and signed, the receiver gets this. *)
Definition arrives (num : numbers) (depth : nat) (n : string) (m : xml) (P : val -> Prop) : Prop :=
  forall s signature gs, shows (signed_object_xml m) s -> signed_with signature gs ->
    exists p, parse_message num depth (create_text signature s) = Ok (n, p) /\ P (VDict p).

Lemma fine_unmarked x : fine unmarked (fun _ => True) x -> unmarked_xml x.
Proof.
  revert x. fix IH 2. intros x [n t _ U|n cs _ F].
  - now apply unmarked_leaf.
  - apply unmarked_node. induction F as [|c cs H F IHF]; constructor; [now apply IH|exact IHF].
Qed.
Definition written (x : xml) : Prop := bare x /\ exists s, lays x s.
Lemma written_shows x : written x -> exists s, shows x s.
Proof. intros [B (s & L)]. exists s. now apply bare_shows. Qed.
Lemma written_all cs : Forall written cs -> Forall bare cs /\ exists b, lays_all cs b.
Proof.
  induction 1 as [|x cs [B (s & S)] F [IH (b & L)]]; [split; [constructor|exists ""; now constructor]|]. split; [now constructor|]. exists ("" ++ s ++ b). now constructor.
Qed.
Lemma written_node n attrs a cs : name n -> NoDup (map fst attrs) -> Forall (fun a => name (fst a) /\ fst a <> "xmlns") attrs -> attrs_as attrs a -> Forall written cs -> written (Elem n attrs "" cs).
Proof.
  intros N D A L F. apply written_all in F as [B (b & F)]. split; [now constructor|]. eexists. apply (sh_node n n attrs a cs b); [now constructor|exact L|exact F].
Qed.
Lemma fine_written x : fine (fun _ => True) name x -> written x.
Proof.
  revert x. fix IH 2. intros x [n t N _|n cs N F].
  - split; [constructor; try assumption; constructor|]. eexists. apply (sh_text n n [] ""); [now constructor|constructor].
  - apply (written_node n [] ""); try constructor; try apply N. induction F as [|c cs H F IHF]; constructor; [now apply IH|exact IHF].
Qed.
Lemma name_ok_name n : name_ok n = true -> name n.
Proof.
  intros H. apply andb_prop in H as [E H]. split; [intros ->; discriminate E|]. clear E. induction n as [|d s IH]; [exact I|]. cbn [name_chars] in H.
  apply andb_prop in H as [Hd H]. split; [|now apply IH]. clear -Hd. unfold name_char. cbv zeta in *.
  repeat match type of Hd with (_ || _ = true)%N => apply orb_prop in Hd as [Hd|Hd] end;
    repeat match goal with H : (_ && _)%N = true |- _ => apply andb_prop in H as [? ?] end;
    repeat match goal with H : (_ <=? _)%N = true |- _ => apply N.leb_le in H | H : (_ =? _)%N = true |- _ => apply N.eqb_eq in H end; lia.
Qed.
Lemma sendable_name n m texts names : sendable n m texts names -> name n.
Proof. destruct 1; now apply name_ok_name. Qed.

(** Whatever times, durations, numbers and truth values there are in a
    message: if the user's texts have no mark-up, then it is read as what was
    meant, and it can be written if the measurements have proper names. *)
Theorem C80_only_texts : forall n m texts names, sendable n m texts names -> Forall unmarked texts ->
  (Forall name names -> exists s, shows (signed_object_xml m) s) /\
  forall num depth s signature gs, shows (signed_object_xml m) s -> signed_with signature gs ->
    parse_message num depth (create_text signature s) = match parse_payload num depth m with Ok d => Ok (n, d) | Raise e => Raise e end.
Proof.
  intros n m texts names S U. pose proof (sendable_name _ _ _ _ S) as Nn. split.
  - intros F. destruct (sendable_fine (fun _ => True) name (fun _ _ => I) name_ok_name n m texts names S) as (cs & E & C); [|exact F|].
    { clear. induction texts; constructor; auto. }
    assert (W : Forall written cs) by (eapply Forall_impl; [|exact C]; apply fine_written). subst m. apply written_shows.
    apply (written_node "oadrSignedObject" [("Id", "oadrSignedObject")] " Id=""oadrSignedObject"""); [a_name|repeat constructor; intros []|constructor; [split; [a_name|discriminate]|constructor]| |].
    { apply (aa_attr "Id" "Id" "oadrSignedObject" [] ""); [apply wr_local; a_name|values|constructor]. }
    constructor; [|constructor].
    apply (written_node n [("schemaVersion", "2.0b")] " schemaVersion=""2.0b"""); [exact Nn|repeat constructor; intros []|constructor; [split; [a_name|discriminate]|constructor]| |exact W].
    apply (aa_attr "schemaVersion" "schemaVersion" "2.0b" [] ""); [apply wr_local; a_name|values|constructor].
  - intros num depth s signature gs H G. destruct (sendable_fine unmarked (fun _ => True) safe_unmarked (fun _ _ => I) n m texts names S U) as (cs & -> & C).
    { clear. induction names; constructor; auto. }
    apply (C79_read_partial num depth _ n s signature gs); [|constructor; [apply unmarked_nil|]|exact H|exact G].
    + do 4 eexists. split; [reflexivity|exact Nn].
    + apply Forall_forall. eapply Forall_impl; [|exact C]. apply fine_unmarked.
Qed.
Print Assumptions C80_only_texts.

(** So what was shown of the messages as trees holds of their texts. *)
Theorem C80_lifted : forall n m texts names num depth P, sendable n m texts names -> Forall unmarked texts -> read num depth m P -> arrives num depth n m P.
Proof.
  intros n m texts names num depth P S U (p & E & H) s signature gs W G. exists p. split; [|exact H]. destruct (C80_only_texts n m texts names S U) as [_ R]. now rewrite (R num depth s signature gs W G), E.
Qed.
Print Assumptions C80_lifted.

(** ** What this means for each message *)
Ltac lift S := eapply C80_lifted; [eapply S|assumption|].
Theorem C80_events : forall num n r q v es, good_header r q v -> Forall (good_event num) es ->
  Forall unmarked (some (fun r => [r_description r; r_request_id r]) r ++ [q; v] ++ flat_map event_texts es) ->
  arrives num (9 + n) "oadrDistributeEvent" (distribute_event_xml r q v es) (fun x => header_arrived r q v x /\
    events_arrived (is_list signal_arrived_but_measurement) es x /\
    (events_arrived signals_complete es x <-> Forall (fun e => measured_first (e_signals e)) es)).
Proof.
  intros num n r q v es H G U. lift s_events. destruct (C15_all_but_measurements_partial num n r q v es H G) as (p & P & A & B).
  destruct (C15_complete_iff_partial num n r q v es H G) as (p' & P' & _ & C). rewrite P in P'. injection P' as <-. exists p. tauto.
Qed.
Print Assumptions C80_events.
Theorem C80_reports : forall num n q rs v, plain q -> good plain v -> Forall (good_report num) rs -> Forall unmarked ([q] ++ flat_map report_texts rs ++ one v) ->
  arrives num (6 + n) "oadrUpdateReport" (update_report_xml q rs v) (fun x => holds x ["request_id"] (is_text q) /\ holds_opt x ["ven_id"] is_text v /\ reports_arrived rs x).
Proof. intros num n q rs v P V G U. lift s_reports. exact (C17_floats_arrive_partial num n q rs v P V G). Qed.
Print Assumptions C80_reports.
Theorem C80_registration : forall num n,
  (forall q p, plain q -> good_party p -> Forall unmarked ([q] ++ party_texts p) ->
    arrives num (5 + n) "oadrCreatePartyRegistration" (create_party_xml q p) (fun x => holds x ["request_id"] (is_text q) /\ party_arrived_but_address p x /\
      (holds_opt x ["transport_address"] is_text (pt_address p) <-> pt_address p <> None))) /\
  (forall r q c, good_answer r -> an_request_id r = Some q -> good_created_party c -> Forall unmarked (answer_texts r ++ created_party_texts c) ->
    arrives num (5 + n) "oadrCreatedPartyRegistration" (created_party_xml r c) (fun x => holds x ["response"] (answer_arrived r (is_text q)) /\ created_party_arrived c x)).
Proof.
  intros num n. split.
  - intros q p Q G U. lift s_create_party. now apply C64_request_partial.
  - intros r q c R Q G U. lift s_created_party. now apply C64_answer_partial.
Qed.
Print Assumptions C80_registration.
Theorem C80_offers : forall num n q os v, plain q -> Forall good_offer os -> good plain v -> Forall unmarked ([q] ++ flat_map offer_texts os ++ one v) ->
  arrives num (5 + n) "oadrRegisterReport" (register_report_xml q os v) (fun x => holds x ["request_id"] (is_text q) /\ holds_opt x ["ven_id"] is_text v /\
    holds_many x ["reports"] (offer_arrived description_arrived_but_measurement) os /\
    (holds_many x ["reports"] (offer_arrived description_arrived) os <-> Forall (fun o => descriptions_measured_first (of_descriptions o)) os)).
Proof.
  intros num n q os v Q G V U. lift s_register_report. destruct (C65_all_but_measurements_partial num n q os v Q G V) as (p & P & A & B & C).
  destruct (C65_complete_iff_partial num n q os v Q G V) as (p' & P' & _ & _ & D). rewrite P in P'. injection P' as <-. exists p. tauto.
Qed.
Print Assumptions C80_offers.
Theorem C80_requests : forall num n r q rs, good_answer r -> an_request_id r = Some q -> Forall good_report_request rs ->
  (forall v, good plain v -> Forall unmarked (answer_texts r ++ flat_map request_texts rs ++ one v) ->
    arrives num (6 + n) "oadrRegisteredReport" (registered_report_xml r rs v) (fun x =>
      holds x ["response"] (answer_arrived r (is_text q)) /\ holds_many x ["report_requests"] report_request_arrived rs /\ holds_opt x ["ven_id"] is_text v)) /\
  (forall v, plain v -> Forall unmarked ([q] ++ flat_map request_texts rs ++ [v]) ->
    arrives num (6 + n) "oadrCreateReport" (create_report_xml q rs v) (fun x =>
      holds x ["request_id"] (is_text q) /\ holds_many x ["report_requests"] report_request_arrived rs /\ holds x ["ven_id"] (is_text v))).
Proof.
  intros num n r q rs R Q G. destruct (C66_requests_arrive num n r q rs R Q G) as [A B]. split.
  - intros v V U. lift s_registered_report. now apply A.
  - intros v V U. lift s_create_report. now apply B.
Qed.
Print Assumptions C80_requests.
Theorem C80_opts : forall num n q v o, plain q -> plain v -> good_opt o -> Forall unmarked ([q; v] ++ opt_texts o) ->
  ((length (om_targets o) <= 1)%nat -> arrives num (6 + n) "oadrCreateOpt" (create_opt_xml q v o) (fun x => opt_arrived_but_lists q v o x /\ opt_targets_arrived o x /\
    (availability_arrived o x <-> forall cs, om_availability o = Some cs -> cs = []))) /\
  ((2 <= length (om_targets o))%nat -> forall s signature gs, shows (signed_object_xml (create_opt_xml q v o)) s -> signed_with signature gs ->
    parse_message num (6 + n) (create_text signature s) = Raise TypeError).
Proof.
  intros num n q v o Q V G U. split; intros L.
  - lift s_create_opt. now apply C69_complete_iff_partial.
  - intros s signature gs W S. destruct (C80_only_texts _ _ _ _ (s_create_opt q v o) U) as [_ R]. rewrite (R num (6 + n)%nat s signature gs W S).
    now rewrite (C69_several_targets_partial num n q v o Q V G L).
Qed.
Print Assumptions C80_opts.

(** A message of each part: events with measurements, texts with brackets,
    quotes and line ends. *)
Lemma bracket_unmarked : unmarked "a] > b" /\ unmarked "it's ""x""".
Proof.
  split; [|now apply safe_unmarked]. split; [cbn [XmlTextSpec.all_chars]; unfold text_char; repeat split; try discriminate; right; right; vm_compute; discriminate|].
  intros f F (b & c & E). apply TextProofs.flattening_flatten in F. subst f. vm_compute in E.
  repeat (destruct b as [|? b]; [discriminate E|injection E as _ E]). destruct b; discriminate E.
Qed.
Example C80_example :
  sendable "oadrDistributeEvent" (distribute_event_xml None "r1" "vtn" [sample_event "a] > b" [sample_signal "it's ""x""" (Some sample_measurement)]])
    (some (fun r => [r_description r; r_request_id r]) None ++ ["r1"; "vtn"] ++ flat_map event_texts [sample_event "a] > b" [sample_signal "it's ""x""" (Some sample_measurement)]])
    (flat_map event_names [sample_event "a] > b" [sample_signal "it's ""x""" (Some sample_measurement)]]) /\
  Forall unmarked (some (fun r => [r_description r; r_request_id r]) None ++ ["r1"; "vtn"] ++ flat_map event_texts [sample_event "a] > b" [sample_signal "it's ""x""" (Some sample_measurement)]]) /\
  Forall name (flat_map event_names [sample_event "a] > b" [sample_signal "it's ""x""" (Some sample_measurement)]]).
Proof.
  split; [constructor|]. destruct bracket_unmarked as [B1 B2]. split.
  - cbn. repeat (apply Forall_cons; [first [exact B1|exact B2|now apply safe_unmarked]|]). apply Forall_nil.
  - cbn. repeat (apply Forall_cons; [now apply name_ok_name|]). apply Forall_nil.
Qed.
