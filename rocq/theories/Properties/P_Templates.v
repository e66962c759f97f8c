(** C84: the templates print the message that is meant by a payload. *)
From Coq Require Import ZArith String Ascii List Bool Lia.
From Verif.Base Require Import Result Dict PyStr.
From Verif.Model Require Import Text DateTime Normalize Xml XmlParty XmlOpt XmlText Measurements Jinja Payloads.
From Verif.Spec Require Import Calendar Instants MessageSpec PartySpec OptSpec XmlTextSpec WrittenSpec PayloadSpec.
From Verif.Proofs Require Import TextProofs XmlTextProofs WrittenProofs TemplateProofs PayloadProofs MeantProofs.
From Verif.Properties Require Import P_Messages P_Party P_Opts P_XmlText P_Written.
Import ListNotations.
Local Open Scope string_scope.

(** In each of the templates every prefix is declared, and every namespace is
    one that the reader knows. *)
Lemma meant_names ns n p m texts names times : meant ns n p m texts names times -> forallb (item_ok []) (items_of (n ++ ".xml")) = true.
Proof. destruct 1; vm_compute; reflexivity. Qed.
(** The text that jinja2 renders is a way to write the message that is meant;
    other entries of the payload make no difference. *)
Theorem C84_rendered : forall other ns n p m texts names times further, meant ns n p m texts names times -> beside n p further ->
  Forall good_time times -> Forall name names -> Forall (fun x => usual_prefix (ns x)) names ->
    exists s, render_template other (n ++ ".xml") (p ++ further)%list = Ok s /\ shows_all [signed_object_xml m] s.
Proof.
  intros other ns n p m texts names times further M B T N P.
  destruct (render_items other (n ++ ".xml") (p ++ further)%list [signed_object_xml m]) as (s & S & R); [now apply (meant_names ns n p m texts names times)| |now exists s].
  eapply meant_trees; [exact M|exact B| |].
  - eapply Forall_impl; [|exact T]. exact good_printable.
  - eapply both_all; [exact N|exact P|]. intros x Nx Px. split; [now apply name_nameb|]. destruct Px as [->| ->]; reflexivity.
Qed.
Print Assumptions C84_rendered.

(** What create_message returns is that text, flattened, in an envelope and
    with the signature. *)
Definition signature_text (o : option string) : string := match o with Some s => s | None => "" end.
Theorem C84_created : forall other sign kind payload,
  create_message other sign kind payload =
  match render_template other (kind ++ ".xml") payload with
  | Ok s => Ok (create_text (signature_text (sign (flatten_xml s))) s)
  | Raise e => Raise e
  end.
Proof.
  intros other sign kind payload. unfold create_message. destruct (render_template other (kind ++ ".xml") payload) as [s|e]; [|reflexivity].
  cbn [bind]. cbv zeta. rewrite payload_rendered. unfold create_text, signature_text. now destruct (sign (flatten_xml s)).
Qed.
Print Assumptions C84_created.

(** White space around the message is not sent. *)
Lemma around x s : shows_all [x] s -> exists t, shows x t /\ flatten_xml s = flatten_xml t.
Proof.
  intros (rs & es & L & M & P). inversion L as [w W W'|w r t cs b W W' S B]; subst; [inversion M; subst; inversion P|].
  inversion M as [|r0 e rs0 es0 M1 M2]; subst. inversion P as [|e' x' fs xs P1 P2]; subst. inversion P2; subst. inversion M2; subst. inversion B as [v V V'|]; subst. exists t. split; [now exists r, e|].
  rewrite (flatten_blank_front w _ W). now apply flatten_blank_back.
Qed.

(** What the receiver makes of a message, if the sender signs it with [sign]
    or not at all. *)
Definition signs (sign : string -> option string) : Prop := forall s, exists gs, signed_with (signature_text (sign s)) gs.
Definition delivered (other : val -> string) (sign : string -> option string) (num : numbers) (depth : nat) (n : string) (payload : vdict) (P : val -> Prop) : Prop :=
  exists t p, create_message other sign n payload = Ok t /\ parse_message num depth t = Ok (n, p) /\ P (VDict p).

(** Creating a message and parsing it is parsing the message that is meant. *)
Theorem C84_round : forall other sign ns n p m texts names times further num depth, meant ns n p m texts names times -> beside n p further ->
  Forall good_time times -> Forall name names -> Forall (fun x => usual_prefix (ns x)) names -> Forall unmarked texts -> signs sign ->
    exists t, create_message other sign n (p ++ further)%list = Ok t /\
      parse_message num depth t = match parse_payload num depth m with Ok d => Ok (n, d) | Raise e => Raise e end.
Proof.
  intros other sign ns n p m texts names times further num depth M B T N P U G.
  destruct (C84_rendered other ns n p m texts names times further M B T N P) as (s & R & S). destruct (around _ _ S) as (s' & S' & F).
  destruct (G (flatten_xml s)) as (gs & K). exists (create_text (signature_text (sign (flatten_xml s))) s). split; [now rewrite C84_created, R|].
  unfold create_text. rewrite F. rewrite <- F at 1. fold (create_text (signature_text (sign (flatten_xml s))) s').
  destruct (C80_only_texts n m texts names (meant_sendable _ _ _ _ _ _ _ M) U) as [_ Rd]. now apply (Rd num depth s' _ gs).
Qed.
Print Assumptions C84_round.

(** So what was shown of the texts of a message (C80) holds of what
    create_message returns. *)
Theorem C84_delivered : forall other sign ns n p m texts names times further num depth P, meant ns n p m texts names times -> beside n p further ->
  Forall good_time times -> Forall name names -> Forall (fun x => usual_prefix (ns x)) names -> signs sign ->
    arrives num depth n m P -> delivered other sign num depth n (p ++ further)%list P.
Proof.
  intros other sign ns n p m texts names times further num depth P M B T N Q G A.
  destruct (C84_rendered other ns n p m texts names times further M B T N Q) as (s & R & S). destruct (around _ _ S) as (s' & S' & F).
  destruct (G (flatten_xml s)) as (gs & K). destruct (A s' _ gs S' K) as (d & E & D). exists (create_text (signature_text (sign (flatten_xml s))) s), d.
  split; [now rewrite C84_created, R|]. split; [|exact D]. rewrite <- E. unfold create_text. now rewrite F.
Qed.
Print Assumptions C84_delivered.

(** ** Events, from the objects of the VTN to the dicts of the VEN *)
Lemma good_event_times num es : Forall (good_event num) es -> Forall good_time (flat_map event_times es).
Proof.
  intros G. apply Forall_forall. intros t I. apply in_flat_map in I as (e & J & I). rewrite Forall_forall in G. destruct (G e J) as (D & A & _ & S & _).
  destruct D as (_ & D1 & _ & _ & D2 & _). destruct A as (A & _). unfold event_times in I. rewrite !in_app_iff in I. destruct I as [I|[[<-|[<-|[]]]|I]]; auto.
  - destruct (d_modification_date_time (e_descriptor e)); [destruct I as [<-|[]]; exact D1|destruct I].
  - apply in_flat_map in I as (s & K & I). rewrite Forall_forall in S. destruct (S s K) as (_ & L & _). unfold signal_times in I. apply in_flat_map in I as (i & M & I).
    rewrite Forall_forall in L. destruct (L i M) as (T & _). destruct (i_dtstart i); [destruct I as [<-|[]]; exact T|destruct I].
Qed.
(** enums.py:257-273, objects.py:158-161: the namespaces of measurements. *)
Definition namespace (n : string) : string := match get String.eqb n measurement_namespaces with Some s => s | None => "" end.
Lemma known_names n : In n (map fst measurement_namespaces) -> name n /\ usual_prefix (namespace n).
Proof. cbn. intros H. repeat (destruct H as [<-|H]; [split; [now apply name_ok_name|now left + now right]|]). destruct H. Qed.
Lemma good_event_names num es : Forall (good_event num) es -> Forall (fun n => In n (map fst measurement_namespaces)) (flat_map event_names es).
Proof.
  intros G. apply Forall_forall. intros n I. apply in_flat_map in I as (e & J & I). rewrite Forall_forall in G. destruct (G e J) as (_ & _ & _ & S & _).
  apply in_flat_map in I as (s & K & I). rewrite Forall_forall in S. destruct (S s K) as (_ & _ & _ & _ & _ & M & _).
  destruct (s_measurement s) as [m|]; [|destruct I]. destruct I as [<-|[]]. destruct M as [M _]. exact M.
Qed.
Theorem C84_events : forall other sign num n r q v es further, good_header (option_map shown r) (or_empty q) v -> Forall (good_event num) es ->
  Forall unmarked (some (fun r => [r_description r; r_request_id r]) (option_map shown r) ++ [or_empty q; v] ++ flat_map event_texts es) ->
  beside "oadrDistributeEvent" (distribute_event_payload namespace r q v es) further -> signs sign ->
    delivered other sign num (9 + n) "oadrDistributeEvent" (distribute_event_payload namespace r q v es ++ further)%list (fun x => header_arrived (option_map shown r) (or_empty q) v x /\
      events_arrived (is_list signal_arrived_but_measurement) es x /\
      (events_arrived signals_complete es x <-> Forall (fun e => measured_first (e_signals e)) es)).
Proof.
  intros other sign num n r q v es further H G U B S. pose proof (good_event_names num es G) as N.
  eapply C84_delivered; [constructor|exact B|now apply good_event_times with num| | |exact S|now apply C80_events].
  - eapply Forall_impl; [|exact N]. intros x I. now apply known_names.
  - eapply Forall_impl; [|exact N]. intros x I. now apply known_names.
Qed.
Print Assumptions C84_events.

(** ** Reports, from the VEN to the VTN *)
Lemma good_report_times num rs : Forall (good_report num) rs -> Forall good_time (flat_map report_times rs).
Proof.
  intros G. apply Forall_forall. intros t I. apply in_flat_map in I as (r & J & I). rewrite Forall_forall in G. destruct (G r J) as (D & F & _ & _ & _ & C).
  unfold report_times in I. rewrite !in_app_iff in I. destruct I as [I|[I|[<-|[]]]]; [| |exact C].
  - destruct (rt_dtstart r); [destruct I as [<-|[]]; exact D|destruct I].
  - apply in_map_iff in I as (i & <- & I). rewrite Forall_forall in F. now destruct (F i I).
Qed.
Theorem C84_reports : forall other sign num n q rs v further, plain q -> good plain v -> Forall (good_report num) rs -> Forall unmarked ([q] ++ flat_map report_texts rs ++ one v) ->
  beside "oadrUpdateReport" (update_report_payload q rs v) further -> signs sign ->
    delivered other sign num (6 + n) "oadrUpdateReport" (update_report_payload q rs v ++ further)%list
      (fun x => holds x ["request_id"] (is_text q) /\ holds_opt x ["ven_id"] is_text v /\ reports_arrived rs x).
Proof.
  intros other sign num n q rs v further Q V G U B S.
  eapply (C84_delivered other sign namespace); [constructor|exact B|now apply good_report_times with num|constructor|constructor|exact S|now apply C80_reports].
Qed.
Print Assumptions C84_reports.

(** ** Registrations, offers and requests of reports, and opts *)
Theorem C84_registration : forall other sign num n further,
  (forall q p, plain q -> good_party p -> Forall unmarked ([q] ++ party_texts p) -> signs sign ->
    delivered other sign num (5 + n) "oadrCreatePartyRegistration" (create_party_payload q p ++ further)%list (fun x =>
      holds x ["request_id"] (is_text q) /\ party_arrived_but_address p x /\ (holds_opt x ["transport_address"] is_text (pt_address p) <-> pt_address p <> None))) /\
  (forall r q c, good_answer r -> an_request_id r = Some q -> good_created_party c -> Forall unmarked (answer_texts r ++ created_party_texts c) ->
    beside "oadrCreatedPartyRegistration" (created_party_payload r c) further -> signs sign ->
    delivered other sign num (5 + n) "oadrCreatedPartyRegistration" (created_party_payload r c ++ further)%list (fun x =>
      holds x ["response"] (answer_arrived r (is_text q)) /\ created_party_arrived c x)).
Proof.
  intros other sign num n further. split.
  - intros q p Q G U S. eapply (C84_delivered other sign namespace); [constructor| |constructor|constructor|constructor|exact S|now apply C80_registration]. intros k [].
  - intros r q c R Q G U B S. eapply (C84_delivered other sign namespace); [constructor|exact B|constructor|constructor|constructor|exact S|now apply C80_registration].
Qed.
Print Assumptions C84_registration.
Lemma good_offer_names os : Forall good_offer os -> Forall (fun n => In n (map fst measurement_namespaces)) (flat_map offer_names os).
Proof.
  intros G. apply Forall_forall. intros n I. apply in_flat_map in I as (o & J & I). rewrite Forall_forall in G. destruct (G o J) as (_ & D & _).
  apply in_flat_map in I as (d & K & I). rewrite Forall_forall in D. destruct (D d K) as (_ & _ & _ & _ & M & _).
  destruct (rd_measurement d) as [m|]; [|destruct I]. destruct I as [<-|[]]. destruct M as [M _]. exact M.
Qed.
Theorem C84_offers : forall other sign num n q os v further, plain q -> Forall good_offer os -> good plain v -> Forall unmarked ([q] ++ flat_map offer_texts os ++ one v) ->
  beside "oadrRegisterReport" (register_report_payload namespace q os v) further -> signs sign ->
    delivered other sign num (5 + n) "oadrRegisterReport" (register_report_payload namespace q os v ++ further)%list (fun x =>
      holds x ["request_id"] (is_text q) /\ holds_opt x ["ven_id"] is_text v /\
      holds_many x ["reports"] (offer_arrived description_arrived_but_measurement) os /\
      (holds_many x ["reports"] (offer_arrived description_arrived) os <-> Forall (fun o => descriptions_measured_first (of_descriptions o)) os)).
Proof.
  intros other sign num n q os v further Q G V U B S. pose proof (good_offer_names os G) as N.
  eapply C84_delivered; [constructor|exact B| | | |exact S|now apply C80_offers].
  - apply Forall_forall. intros t I. apply in_map_iff in I as (o & <- & I). rewrite Forall_forall in G. now destruct (G o I) as (_ & _ & _ & _ & T).
  - eapply Forall_impl; [|exact N]. intros x I. now apply known_names.
  - eapply Forall_impl; [|exact N]. intros x I. now apply known_names.
Qed.
Print Assumptions C84_offers.
Lemma good_request_times rs : Forall good_report_request rs -> Forall good_time (flat_map request_times rs).
Proof.
  intros G. apply Forall_forall. intros t I. apply in_flat_map in I as (r & J & I). rewrite Forall_forall in G. destruct (G r J) as (_ & _ & _ & _ & T & _).
  unfold request_times in I. destruct (rr_interval r); [|destruct I]. destruct I as [<-|[]]. apply T.
Qed.
Theorem C84_requests : forall other sign num n r q rs further, good_answer r -> an_request_id r = Some q -> Forall good_report_request rs -> signs sign ->
  (forall v, good plain v -> Forall unmarked (answer_texts r ++ flat_map request_texts rs ++ one v) -> beside "oadrRegisteredReport" (registered_report_payload r rs v) further ->
    delivered other sign num (6 + n) "oadrRegisteredReport" (registered_report_payload r rs v ++ further)%list (fun x =>
      holds x ["response"] (answer_arrived r (is_text q)) /\ holds_many x ["report_requests"] report_request_arrived rs /\ holds_opt x ["ven_id"] is_text v)) /\
  (forall v, plain v -> Forall unmarked ([q] ++ flat_map request_texts rs ++ [v]) ->
    delivered other sign num (6 + n) "oadrCreateReport" (create_report_payload q rs v ++ further)%list (fun x =>
      holds x ["request_id"] (is_text q) /\ holds_many x ["report_requests"] report_request_arrived rs /\ holds x ["ven_id"] (is_text v))).
Proof.
  intros other sign num n r q rs further R Q G S. pose proof (good_request_times rs G) as T. destruct (C80_requests num n r q rs R Q G) as [A1 A2]. split.
  - intros v V U B. eapply (C84_delivered other sign namespace); [constructor|exact B|exact T|constructor|constructor|exact S|now apply A1].
  - intros v V U. eapply (C84_delivered other sign namespace); [constructor|intros k []|exact T|constructor|constructor|exact S|now apply A2].
Qed.
Print Assumptions C84_requests.
Theorem C84_opts : forall other sign num n q v o further, plain q -> plain v -> good_opt o -> Forall unmarked ([q; v] ++ opt_texts o) -> (length (om_targets o) <= 1)%nat -> signs sign ->
  delivered other sign num (6 + n) "oadrCreateOpt" (create_opt_payload q v o ++ further)%list (fun x =>
    opt_arrived_but_lists q v o x /\ opt_targets_arrived o x /\ (availability_arrived o x <-> forall cs, om_availability o = Some cs -> cs = [])).
Proof.
  intros other sign num n q v o further Q V G U L S.
  eapply (C84_delivered other sign namespace); [constructor|intros k []| |constructor|constructor|exact S|now apply C80_opts].
  destruct G as (_ & _ & _ & _ & C & T & _). constructor; [exact T|]. destruct (om_availability o) as [cs|]; [|constructor].
  apply Forall_forall. intros t I. apply in_map_iff in I as (c & <- & I). cbn [good] in C. rewrite Forall_forall in C. now destruct (C c I).
Qed.
Print Assumptions C84_opts.
Theorem C84_answers : forall other sign num n r rs v further, plain (an_description r) -> plain v -> Forall good_response rs ->
  Forall unmarked ([an_description r; v] ++ flat_map event_response_texts rs) -> signs sign ->
  delivered other sign num (5 + n) "oadrCreatedEvent" (created_event_payload r rs v ++ further)%list (fun x =>
    holds x ["ven_id"] (is_text v) /\ holds x ["response"; "response_code"] (is_int (an_code r)) /\ holds x ["response"; "response_description"] (is_text (an_description r)) /\
    match rs with
    | [] => at_path ["event_responses"] x = Some VNone
    | _ => holds x ["event_responses"] (is_list response_arrived rs)
    end).
Proof.
  intros other sign num n r rs v further P1 P2 G U S.
  eapply (C84_delivered other sign namespace); [constructor|intros k []|constructor|constructor|constructor|exact S|].
  eapply C80_lifted; [constructor|exact U|]. exact (C16_responses_arrive num n (an_code r) (an_description r) rs v P1 P2 G).
Qed.
Print Assumptions C84_answers.

(** ** What the VTN of this package sends in answer to a poll: no request id of
    the message, and an answer with the request id None. *)
Definition sample_events : list event := [sample_event "e1" [sample_signal "it's ""x""" (Some sample_measurement)]; sample_event "e2" [sample_signal "s1" None]].
Definition poll_answer : answer := mk_answer 200 "OK" None.
Example C84_example :
  meant namespace "oadrDistributeEvent" (distribute_event_payload namespace (Some poll_answer) None "vtn" sample_events)
    (distribute_event_xml (Some (mk_response 200 "OK" "None")) "" "vtn" sample_events)
    (["OK"; "None"; ""; "vtn"] ++ flat_map event_texts sample_events) ["powerReal"] (flat_map event_times sample_events) /\
  beside "oadrDistributeEvent" (distribute_event_payload namespace (Some poll_answer) None "vtn" sample_events) [("ven_id", VStr "ven1")] /\
  Forall good_time (flat_map event_times sample_events) /\ name "powerReal" /\ usual_prefix (namespace "powerReal") /\
  Forall unmarked (["OK"; "None"; ""; "vtn"] ++ flat_map event_texts sample_events) /\ signs (fun _ => None) /\
  exists t, create_message (fun _ => "") (fun _ => None) "oadrDistributeEvent" (distribute_event_payload namespace (Some poll_answer) None "vtn" sample_events ++ [("ven_id", VStr "ven1")])%list = Ok t /\
    (4000 <? String.length t)%nat = true.
Proof.
  split; [exact (m_events namespace (Some poll_answer) None "vtn" sample_events)|]. split; [|split; [|split; [|split; [|split; [|split]]]]].
  - intros k [<-|[<-|[]]] _; reflexivity.
  - repeat (constructor; [exact good_moment|]). constructor.
  - now apply name_ok_name.
  - now right.
  - cbn. repeat (apply Forall_cons; [now apply safe_unmarked|]). apply Forall_nil.
  - intros s. exists []. now left.
  - eexists. split; [vm_compute; reflexivity|vm_compute; reflexivity].
Qed.
