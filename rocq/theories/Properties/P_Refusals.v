(** C88, continued: what a VEN is told when the VTN refuses a request. *)
From Coq Require Import ZArith String Ascii List Bool Lia.
From Verif.Base Require Import Result Dict PyStr.
From Verif.Model Require Import ClientRequest VtnService.
From Verif.Spec Require Import VtnServiceSpec.
From Verif.Proofs Require Import VtnServiceProofs.
From Verif.Model Require Import DateTime Text Measurements Normalize SchemaTypes Xml XmlParty XmlOpt XmlText Jinja Payloads PreflightDict.
From Verif.Spec Require Import MessageSpec PartySpec OptSpec XmlTextSpec WrittenSpec PayloadSpec PayloadsAnySpec AcceptedSpec ExchangeSpec CheckedSpec.
From Verif.Proofs Require Import NormalizeProofs MessageProofs ArrivalProofs BlockProofs PartyProofs PartyArrival OfferProofs OptMessageProofs ClientRequestProofs PreflightDictProofs ExchangeProofs SchemaSentProofs.
From Verif.Properties Require Import P_Async P_Messages P_Party P_Opts P_XmlText P_Written P_Templates P_Schema P_VtnService P_Exchange P_Conversations.
From Verif.Model Require Import Exchange.
Import ListNotations.
Local Open Scope string_scope.
Local Open Scope Z_scope.

Section Refusals.
Context (other : val -> string) (num : numbers) (depth : nat) (uri : string -> bool) (foreign : xml -> bool) (decimals : Z -> nat -> string) (opaque : nat -> val).
Notation world_of := (vtn_world other num depth uri foreign decimals opaque).
Notation exchange_ := (exchange other num depth uri foreign decimals opaque).
Notation conveys := (conveys uri foreign).
Notation welcome := (welcome other num depth uri foreign decimals opaque).
Notation working := (working foreign).

(** ** The VTN's side *)
Lemma answer_given v n text t d : unhindered v -> VtnServiceSpec.arrives (world_of v) (posted n text) text t (received d) ->
  snd (handler (world_of v) (v_config v) (posted n text)) = VtnService.answer (world_of v) (Some t) (ended (after_arrival (world_of v) (v_config v) (posted n text) text t (received d))).
Proof.
  intros H AR. unfold handler. rewrite (arrived _ _ _ _ _ _ AR), after_mtype. cbn [snd]. set (a := VtnService.answer _ _ _). destruct a; [|reflexivity]. now rewrite (H _ : w_hook (world_of v) "before_respond" = Ok tt).
Qed.

(** [refused v n text t d es code description]: the request is refused with
    this code after what [es] says has happened. *)
Inductive refused (v : vtn) (n : connection) (text t : string) (d : vdict) : list VtnService.effect -> Z -> string -> Prop :=
| refused_vtn : ~ for_us (v_config v) (received d) -> refused v n text t d [] 452 ""
| refused_ven ven : for_us (v_config v) (received d) -> registered_ven (v_config v) t (received d) -> n_secure n = true -> pget "ven_id" (received d) = Some ven -> has_lookup (v_config v) ->
    n_cert n = Ok None \/ (exists con fp, n_cert n = Ok (Some con) /\ on_file (v_config v) t ven fp /\ con <> fp) -> refused v n text t d [] 463 ""
| refused_by_handler q code description : welcome v n t d text -> handed n t d q -> c_handle (v_config v) t q = Raise (ProtocolError code description) ->
    refused v n text t d [Handled t q] code description.

Lemma refused_answer v n text t d es code description : unhindered v -> VtnServiceSpec.arrives (world_of v) (posted n text) text t (received d) -> t <> "oadrResponse" -> refused v n text t d es code description ->
  fst (handler (world_of v) (v_config v) (posted n text)) = es /\
  snd (handler (world_of v) (v_config v) (posted n text)) = VtnService.answer (world_of v) (Some t) (Raise (ProtocolError code description)).
Proof.
  intros H AR NR R. rewrite (answer_given v n text t d H AR), handler_effects, (arrived _ _ _ _ _ _ AR). destruct (after_ended (world_of v) (v_config v) (posted n text) text t (received d) NR) as [E1 E2].
  destruct R as [N|ven F RV SEC V HL D|q code description (IT & _ & F & RV & AU) HD C].
  - rewrite E1, E2, (check_vtn_fail _ _ N), cbind_lift_raise. split; reflexivity.
  - rewrite E1, E2. apply (check_vtn_ok (v_config v) (received d) tt) in F. pose proof RV as RV'. apply check_ven_ok in RV' as [k RV']. rewrite F, cbind_lift_ok, RV', cbind_lift_ok, (sender_refused _ _ t k (posted n text) text _ ven RV' SEC V HL D), cbind_lift_raise. split; reflexivity.
  - assert (AF : add_fingerprint (posted n text) t (received d) = Ok q) by (apply add_fingerprint_iff; exact HD).
    destruct (handled_ended (world_of v) (v_config v) (posted n text) t q text (received d) AR NR F RV AU AF) as (E & M & EF). rewrite (arrived _ _ _ _ _ _ AR) in E, EF. rewrite E, EF.
    rewrite (handle_message_raises (world_of v) _ _ _ _ (H "before_handle" : w_hook (world_of v) "before_handle" = Ok tt) IT C). cbn [bind]. split; [|reflexivity].
    unfold handle_message. rewrite (H _ : w_hook (world_of v) "before_handle" = Ok tt), cbind_lift_ok. apply in_types in IT. rewrite IT. unfold cbind, lift. cbn [ended]. rewrite C. reflexivity.
Qed.

(** ** What is sent *)
Lemma error_written v code description : write other num depth uri foreign decimals opaque v "oadrResponse" [("response", Resp code description None)] =
  write_message other (v_clock v) (v_sign v) "oadrResponse" (response_message_payload (mk_answer code description None) (Some "")).
Proof. reflexivity. Qed.
Lemma unsupported_written v x ven : write other num depth uri foreign decimals opaque v "oadrResponse" [("response", Resp 459 not_supported None); ("vtn_id", x); ("ven_id", Val (SStr ven))] =
  write_message other (v_clock v) (v_sign v) "oadrResponse" (response_message_payload (mk_answer 459 not_supported None) (Some ven)).
Proof. reflexivity. Qed.
Definition said (description : string) : val := match description with "" => VNone | _ => VStr description end.
Definition sayable (description : string) : Prop := description = "" \/ plain description /\ printable [description].
Lemma error_parsed k code description ven : description = "" \/ plain description -> ven = "" \/ plain ven ->
  parse_payload num (S (S k)) (response_message_xml (mk_answer code description None) (Some ven)) =
    Ok [("response", VDict [("response_code", VInt code); ("response_description", said description); ("request_id", VNone)]); ("ven_id", said ven)].
Proof.
  intros D V.
  assert (ST : forall j key key' s, text_key key key' = true -> keyed key key' = true -> leaf_key key' = true -> duration_key (normalize_key key) = false -> duration_key key' = false -> s = "" \/ plain s ->
    good_step num j (leaf key s, [(key', said s)])).
  { intros j key key' s T1 T2 T3 T4 T5 [->|P]; [now apply step_none|]. replace (said s) with (VStr s); [now apply step_text|]. destruct s; [|reflexivity]. destruct P as (P & _). now destruct P. }
  apply (plain_steps_parsed num (S k) "oadrResponse" [(answer_tested_xml (mk_answer code description None), [("response", VDict [("response_code", VInt code); ("response_description", said description); ("request_id", VNone)])]);
    (leaf "venID" ven, [("ven_id", said ven)])]); [|reflexivity].
  constructor; [|constructor; [now apply ST|constructor]]. apply step_dict; try reflexivity.
  apply (arrives_node num k "eiResponse" [(leaf "responseCode" (str_of_Z code), [("response_code", VInt code)]);
    (leaf "responseDescription" description, [("response_description", said description)]); (leaf "requestID" "", [("request_id", VNone)])]); [discriminate| |reflexivity].
  constructor; [now apply step_int|]. constructor; [now apply ST|]. constructor; [now apply step_none|constructor].
Qed.

Ltac printed_texts := split; repeat first [assumption|apply Forall_app; split]; repeat (apply Forall_cons; [first [assumption|now apply safe_unmarked|now apply single_check]|]); first [assumption|apply Forall_nil].
(** The answer on its way: it is sent, accepted and read. *)
Lemma answer_back e v vtn_name n text t' p m (cond : Prop) texts d' s : working e v vtn_name -> t' <> "oadrRegisterReport" -> t' <> "oadrDistributeEvent" ->
  demands (fun u => uri u = true) false namespace t' p m texts [] [] cond -> cond -> printable texts -> parse_payload num depth m = Ok d' -> reportable d' ->
  write_message other (v_clock v) (v_sign v) t' p = s ->
  answered other num depth uri foreign decimals opaque v n text = match s with Ok s => (200, s) | Raise _ => (500, v_text v) end ->
  snd (perform_request _ _ _ (ven_oracles other num depth uri foreign decimals opaque e v n) (e_hooks e) (e_signed e) text) = Ok (RMessage _ t' d').
Proof.
  intros (TR & U & _ & (SG & SV) & _) N1 N2 D C P R RP W A. destruct TR as ((adds & RG) & TR).
  assert (CV : conveys false (v_clock v) (v_sign v) t' p m cond).
  { eapply (conveys_own uri foreign false _ _ _ p p m texts [] [] cond []); [now apply turns_unchecked|exact SG|exact SV|exact D|apply beside_none|apply none_measured|constructor|constructor|exact P|]. intros k. now rewrite app_nil_r. }
  destruct (conveys_read other num depth uri foreign _ _ _ _ _ _ _ CV) as (s' & W' & Rs). destruct (conveys_passes other uri foreign _ _ _ _ _ _ _ CV C W') as (x & X). rewrite R in Rs. rewrite W' in W. subst s.
  apply (C62_only_valid_messages_are_accepted _ _ _ _ adds _ _ _ _ _ RG). exists s', x. cbn [ven_oracles decodes post body_empty validate_schema validate_signature parse response_code has_description].
  repeat split; [now rewrite A|now apply not_empty with uri foreign x|exact X|intros Sg; now apply TR|exact Rs|exact RP].
Qed.
Lemma sent_answer v n text t' q : snd (handler (world_of v) (v_config v) (posted n text)) = send (world_of v) t' q ->
  answered other num depth uri foreign decimals opaque v n text = match write other num depth uri foreign decimals opaque v t' q with Ok s => (200, s) | Raise _ => (500, v_text v) end.
Proof. intros E. unfold answered. rewrite E. unfold send, write. now destruct (VtnService.create_message (world_of v) t' q). Qed.

(** The VEN sends a request that arrives. *)
Definition sends (e : ven) (t : string) (p d : vdict) : Prop :=
  exists m cond, conveys false (e_clock e) (e_sign e) t p m cond /\ (cond : Prop) /\ parse_payload num depth m = Ok d.
Lemma sends_arrives e v n t p d : unhindered v -> sends e t p d -> exists text, write_message other (e_clock e) (e_sign e) t p = Ok text /\ VtnServiceSpec.arrives (world_of v) (posted n text) text t (received d).
Proof.
  intros U (m & cond & S & C & P). destruct (conveys_read other num depth uri foreign _ _ _ _ _ _ _ S) as (text & T & R). destruct (conveys_passes other uri foreign _ _ _ _ _ _ _ S C T) as (x & X). rewrite P in R.
  exists text. split; [exact T|]. exact (posted_arrives other num depth uri foreign decimals opaque v n text x t d U X R).
Qed.

(** ** The VEN hears why: the code, and the description that the handler gave *)
Theorem C88_told : forall e v n vtn_name t p d es code description, working e v vtn_name -> (2 <= depth)%nat -> sends e t p d -> t <> "oadrResponse" -> t <> "oadrRequestEvent" ->
  (forall text, write_message other (e_clock e) (e_sign e) t p = Ok text -> refused v n text t d es code description) -> a_code code -> sayable description ->
  exchange_ e v n t p = (es, Ok (RMessage _ "oadrResponse" [("response", VDict [("response_code", VInt code); ("response_description", said description); ("request_id", VNone)]); ("ven_id", VNone)])).
Proof.
  intros e v n vtn_name t p d es code description W D S NR NE RF C SY. pose proof W as (_ & U & _). destruct (sends_arrives e v n t p d U S) as (text & T & AR).
  destruct (refused_answer v n text t d es code description U AR NR (RF text T)) as [EF AN]. unfold exchange. rewrite T, EF. f_equal.
  cbn [VtnService.answer] in AN. unfold error_response in AN. apply String.eqb_neq in NE. rewrite NE in AN. apply sent_answer in AN. rewrite error_written in AN.
  eapply answer_back; [exact W|discriminate|discriminate|apply (d_response _ _ namespace (mk_answer code description None) (Some ""))|exact C| | | |reflexivity|exact AN].
  - destruct SY as [->|(_ & P1 & P2)]; cbn; [printed_texts|]. inversion P1; inversion P2; subst. printed_texts.
  - replace depth with (2 + (depth - 2))%nat by lia. apply error_parsed; [|now left]. destruct SY as [|(P & _)]; auto.
  - intros c. reflexivity.
Qed.

(** A VEN that is not registered is asked to register. *)
Theorem C88_reregister : forall e v n vtn_name t p d ven lookup info, working e v vtn_name -> (2 <= depth)%nat -> sends e t p d -> t <> "oadrResponse" -> ~ opening t -> for_us (v_config v) (received d) ->
  vget "ven_id" d = Some (VStr ven) -> c_ven_lookup (v_config v) = Some lookup -> lookup 0%nat (Val (SStr ven)) = Ok info -> not_registered info -> plain ven -> printable [ven] ->
  exchange_ e v n t p = ([], Ok (RMessage _ "oadrRequestReregistration" [("ven_id", VStr ven)])).
Proof.
  intros e v n vtn_name t p d ven lookup info W D S NR NO F V L I NI PV PR. pose proof W as (_ & U & _). destruct (sends_arrives e v n t p d U S) as (text & T & AR).
  assert (V' : pget "ven_id" (received d) = Some (Val (SStr ven))) by (rewrite received_get, V; reflexivity).
  assert (CV : check_ven (v_config v) t (received d) = Raise (RequestReregistration (SStr ven))).
  { unfold check_ven. pose proof (opening_iff t) as O. destruct (_ || _); [elim NO; now apply O|]. rewrite V', L, I. cbn [bind]. destruct info as [i|]; [|reflexivity]. destruct NI as [NI|NI]; rewrite NI; reflexivity. }
  pose proof (answer_given v n text t d U AR) as AN. destruct (after_ended (world_of v) (v_config v) (posted n text) text t (received d) NR) as [E1 E2].
  apply (check_vtn_ok (v_config v) (received d) tt) in F. unfold exchange. rewrite T, handler_effects, (arrived _ _ _ _ _ _ AR), E1. rewrite E2 in AN. rewrite F, cbind_lift_ok, CV, cbind_lift_raise in *. f_equal.
  cbn [ended lift VtnService.answer] in AN. apply sent_answer in AN.
  eapply answer_back; [exact W|discriminate|discriminate|apply (d_reregistration _ _ namespace ven)|exact Logic.I|exact PR| | |reflexivity|exact AN].
  - replace depth with (1 + (depth - 1))%nat by lia. apply (plain_steps_parsed num (depth - 1) "oadrRequestReregistration" [(leaf "venID" ven, [("ven_id", VStr ven)])]); [|reflexivity]. constructor; [now apply step_text|constructor].
  - intros c. discriminate.
Qed.

(** A message that the VTN does not handle at all. *)
Theorem C88_unsupported : forall e v n vtn_name t p d ven, working e v vtn_name -> (2 <= depth)%nat -> sends e t p d -> t <> "oadrResponse" -> t <> "oadrCreatePartyRegistration" ->
  for_us (v_config v) (received d) -> registered_ven (v_config v) t (received d) ->
  (forall text ven, write_message other (e_clock e) (e_sign e) t p = Ok text -> n_secure n = true -> pget "ven_id" (received d) = Some ven -> has_lookup (v_config v) -> authentic (world_of v) (v_config v) (posted n text) text t ven) ->
  ~ In t (c_types (v_config v)) -> vget "ven_id" d = Some (VStr ven) -> plain ven -> printable [ven] ->
  exchange_ e v n t p = ([], Ok (RMessage _ "oadrResponse" [("response", VDict [("response_code", VInt 459); ("response_description", VStr "A message of this type should not be sent to this endpoint"); ("request_id", VNone)]); ("ven_id", VStr ven)])).
Proof.
  intros e v n vtn_name t p d ven W D S NR NC F RV AU NI V PV PR. pose proof W as (_ & U & _). destruct (sends_arrives e v n t p d U S) as (text & T & AR).
  assert (HF : add_fingerprint (posted n text) t (received d) = Ok (received d)) by (apply add_fingerprint_iff; right; split; [intros [_ X]; contradiction|reflexivity]).
  destruct (handled_ended (world_of v) (v_config v) (posted n text) t (received d) text (received d) AR NR F RV (fun ven => AU text ven T) HF) as (E & M & EF).
  destruct (handle_message_unsupported (world_of v) (v_config v) t (received d) (U "before_handle") (U "after_handle") NI) as [G1 G2].
  pose proof (answer_given v n text t d U AR) as AN. rewrite <- (arrived _ _ _ _ _ _ AR), E, G1 in AN. cbn [bind VtnService.answer fst snd] in AN. apply sent_answer in AN.
  unfold exchange. rewrite T, handler_effects, EF, G2. f_equal.
  assert (FN : VtnService.finish (v_config v) (received d) [("response", Resp 459 not_supported None)] = [("response", Resp 459 not_supported None); ("vtn_id", Val (c_vtn (v_config v))); ("ven_id", Val (SStr ven))]).
  { change (VtnService.finish (v_config v) (received d) [("response", Resp 459 not_supported None)]) with [("response", Resp 459 not_supported None); ("vtn_id", Val (c_vtn (v_config v))); ("ven_id", pget_none "ven_id" (received d))].
    unfold pget_none. now rewrite received_get, V. }
  rewrite FN in AN. rewrite unsupported_written in AN.
  eapply answer_back; [exact W|discriminate|discriminate|apply (d_response _ _ namespace (mk_answer 459 not_supported None) (Some ven))|unfold ok_answer, a_code; cbn; lia| | | |reflexivity|exact AN].
  - destruct PR as [P1 P2]. inversion P1; inversion P2; subst. printed_texts.
  - replace depth with (2 + (depth - 2))%nat by lia. etransitivity; [apply (error_parsed (depth - 2) 459 not_supported ven); [right; plain_text|now right]|]. destruct ven; [destruct PV as [PV _]; now destruct PV|reflexivity].
  - intros c. reflexivity.
Qed.

(** Only an oadrRequestEvent that is refused is not answered: the VTN fails to
    write the answer, and the VEN hears that something went wrong. *)
Theorem C88_untold : forall e v n vtn_name p d es code description, working e v vtn_name -> sends e "oadrRequestEvent" p d ->
  (forall text, write_message other (e_clock e) (e_sign e) "oadrRequestEvent" p = Ok text -> refused v n text "oadrRequestEvent" d es code description) ->
  exchange_ e v n "oadrRequestEvent" p = (es, Ok (RFailed _)).
Proof.
  intros e v n vtn_name p d es code description W S RF. pose proof W as ((R & _) & U & _). destruct (sends_arrives e v n _ p d U S) as (text & T & AR).
  destruct (refused_answer v n text _ d es code description U AR ltac:(discriminate) (RF text T)) as [EF AN]. unfold exchange. rewrite T, EF. f_equal.
  eapply failed_reply; [exact R|reflexivity|]. left. unfold answered. rewrite AN. cbn. discriminate.
Qed.

(** A handler that raises another exception: so it is for every request. *)
Theorem C88_broken : forall e v n vtn_name t p d q x s, working e v vtn_name -> sends e t p d ->
  (forall text, write_message other (e_clock e) (e_sign e) t p = Ok text -> welcome v n t d text) -> handed n t d q ->
  c_handle (v_config v) t q = Raise x -> status_for x = Some s -> s <> 200 -> exchange_ e v n t p = ([Handled t q], Ok (RFailed _)).
Proof.
  intros e v n vtn_name t p d q x s W S WE HD C ST N. pose proof W as ((R & _) & U & _). destruct (sends_arrives e v n _ p d U S) as (text & T & AR). destruct (WE text T) as (IT & NR & F & RV & AU).
  assert (AF : add_fingerprint (posted n text) t (received d) = Ok q) by (apply add_fingerprint_iff; exact HD).
  destruct (handled_ended (world_of v) (v_config v) (posted n text) t q text (received d) AR NR F RV AU AF) as (E & M & EF).
  rewrite (handle_message_raises (world_of v) _ _ _ _ (U "before_handle" : w_hook (world_of v) "before_handle" = Ok tt) IT C) in E. cbn [bind] in E.
  unfold exchange. rewrite T, handler_effects, EF. f_equal.
  - unfold handle_message. rewrite (U _ : w_hook (world_of v) "before_handle" = Ok tt), cbind_lift_ok. apply in_types in IT. rewrite IT. unfold cbind, lift. cbn [ended]. rewrite C. reflexivity.
  - eapply failed_reply; [exact R|reflexivity|]. left. pose proof (answer_given v n text t d U AR) as AN. rewrite <- (arrived _ _ _ _ _ _ AR), E in AN. unfold answered. rewrite AN.
    destruct x; cbn in ST |- *; try discriminate; try (injection ST as <-; congruence).
Qed.

(** ** Polling *)
Lemma poll_sends e v vtn_name ven : working e v vtn_name -> (2 <= depth)%nat -> plain ven -> printable [ven] -> sends e "oadrPoll" (poll_payload ven) [("ven_id", VStr ven)].
Proof.
  intros (_ & _ & (G & V) & _) D P PR. exists (poll_xml ven), True. split; [|split; [exact I|]].
  - eapply (conveys_own uri foreign false _ _ _ (poll_payload ven) (poll_payload ven) _ [ven] [] [] _ []); [now apply turns_unchecked|exact G|exact V|apply d_poll|apply beside_none|apply none_measured|constructor|constructor|exact PR|]. intros k. now rewrite app_nil_r.
  - replace depth with (1 + (depth - 1))%nat by lia. now apply poll_parsed.
Qed.
Lemma request_event_sends e v vtn_name q ven : working e v vtn_name -> (2 <= depth)%nat -> plain q -> plain ven -> printable [q; ven] ->
  sends e "oadrRequestEvent" (request_event_payload q ven None) [("request_id", VStr q); ("ven_id", VStr ven)].
Proof.
  intros (_ & _ & (G & V) & _) D Q P PR. exists (request_event_xml q ven None), True. split; [|split; [exact I|]].
  - eapply (conveys_own uri foreign false _ _ _ (request_event_payload q ven None) (request_event_payload q ven None) _ [q; ven] [] [] _ []); [now apply turns_unchecked|exact G|exact V|exact (d_request_event (fun u => uri u = true) false namespace q ven None)|apply beside_none|apply none_measured|constructor|constructor|exact PR|]. intros k. now rewrite app_nil_r.
  - replace depth with (2 + (depth - 2))%nat by lia. now apply (request_event_parsed num (depth - 2) q ven None).
Qed.
End Refusals.

(** A handler that refuses; a VEN that is not known (any more); a message that
    the VTN does not handle; a certificate that is not the VEN's. *)
Definition refuses (t : string) (q : payload) : result hresult := Raise (ProtocolError 461 "not now").
Definition forgetful_vtn : vtn :=
  mk_vtn (mk_cfg (SStr "vtn") (Some (fun _ _ => Ok None)) None false ["oadrPoll"] refuses)
    (fun _ => moment) (fun _ => None) (fun _ => Ok "") (fun _ => Ok tt) (fun _ => Ok tt) (fun _ => Ok tt) "id1" "error".
Definition careful_vtn : vtn :=
  mk_vtn (mk_cfg (SStr "vtn") None (Some (fun _ => Ok (SStr "AA"))) false ["oadrPoll"] refuses)
    (fun _ => moment) (fun _ => None) (fun _ => Ok "") (fun _ => Ok tt) (fun _ => Ok tt) (fun _ => Ok tt) "id1" "error".
Lemma careful_working : working (fun _ => false) some_ven careful_vtn "vtn".
Proof. exact (some_working ["oadrPoll"] refuses). Qed.
Definition told (code : Z) (description : val) (ven : val) : ClientRequest.reply vdict :=
  RMessage _ "oadrResponse" [("response", VDict [("response_code", VInt code); ("response_description", description); ("request_id", VNone)]); ("ven_id", ven)].

Example C88_example_told : with_some exchange some_ven (some_vtn ["oadrPoll"] refuses) no_tls "oadrPoll" (poll_payload "ven1") =
  ([Handled "oadrPoll" [("ven_id", Val (SStr "ven1"))]], Ok (told 461 (VStr "not now") VNone)).
Proof.
  apply (with_some C88_told) with (vtn_name := "vtn") (d := [("ven_id", VStr "ven1")]) (description := "not now").
  - apply some_working.
  - lia.
  - eapply poll_sends; [apply (some_working ["oadrPoll"] refuses)|lia|plain_text|printed_literals].
  - discriminate.
  - discriminate.
  - intros text _. apply (refused_by_handler _ _ _ _ _ _ _ _ _ _ _ _ [("ven_id", Val (SStr "ven1"))]); [welcomed|now apply handed_plain|reflexivity].
  - unfold a_code; lia.
  - right. split; [plain_text|printed_literals].
Qed.
Example C88_example_impostor : with_some exchange some_ven careful_vtn (mk_connection true (Ok (Some "BB"))) "oadrPoll" (poll_payload "ven1") = ([], Ok (told 463 VNone VNone)).
Proof.
  apply (with_some C88_told) with (vtn_name := "vtn") (d := [("ven_id", VStr "ven1")]) (description := "").
  - exact careful_working.
  - lia.
  - eapply poll_sends; [exact careful_working|lia|plain_text|printed_literals].
  - discriminate.
  - discriminate.
  - intros text _. eapply refused_ven with (ven := Val (SStr "ven1")); [now left|now do 2 right; left|reflexivity|reflexivity|now left|].
    right. exists "BB", "AA". split; [reflexivity|]. split; [split; [reflexivity|discriminate]|discriminate].
  - unfold a_code; lia.
  - now left.
Qed.
Example C88_example_reregister : with_some exchange some_ven forgetful_vtn no_tls "oadrPoll" (poll_payload "ven1") = ([], Ok (RMessage _ "oadrRequestReregistration" [("ven_id", VStr "ven1")])).
Proof.
  eapply (with_some C88_reregister) with (vtn_name := "vtn") (d := [("ven_id", VStr "ven1")]).
  - exact (some_working ["oadrPoll"] refuses).
  - lia.
  - eapply poll_sends; [apply (some_working ["oadrPoll"] refuses)|lia|plain_text|printed_literals].
  - discriminate.
  - intros [H|H]; discriminate H.
  - now left.
  - reflexivity.
  - reflexivity.
  - reflexivity.
  - exact I.
  - plain_text.
  - printed_literals.
Qed.
Example C88_example_unsupported : exists d, with_some exchange some_ven (some_vtn ["oadrUpdateReport"] refuses) no_tls "oadrPoll" (poll_payload "ven1") = ([], Ok (told 459 d (VStr "ven1"))).
Proof.
  eexists. apply (with_some C88_unsupported) with (vtn_name := "vtn") (d := [("ven_id", VStr "ven1")]).
  - apply some_working.
  - lia.
  - eapply poll_sends; [apply (some_working ["oadrPoll"] refuses)|lia|plain_text|printed_literals].
  - discriminate.
  - discriminate.
  - now left.
  - do 3 right. do 4 eexists. repeat split; try reflexivity. discriminate.
  - discriminate.
  - intros [H|[]]; discriminate H.
  - reflexivity.
  - plain_text.
  - printed_literals.
Qed.
Example C88_example_untold : exists q, with_some exchange some_ven (some_vtn ["oadrRequestEvent"] refuses) no_tls "oadrRequestEvent" (request_event_payload "q1" "ven1" None) =
  ([Handled "oadrRequestEvent" q], Ok (RFailed _)).
Proof.
  eexists. eapply (with_some C88_untold) with (vtn_name := "vtn") (d := [("request_id", VStr "q1"); ("ven_id", VStr "ven1")]) (code := 461) (description := "not now").
  - apply some_working.
  - eapply request_event_sends; [apply (some_working ["oadrPoll"] refuses)|lia|plain_text|plain_text|printed_literals].
  - intros text _. eapply refused_by_handler; [welcomed|now apply handed_plain|reflexivity].
Qed.
Example C88_example_broken : with_some exchange some_ven (some_vtn ["oadrPoll"] (fun _ _ => Raise KeyError)) no_tls "oadrPoll" (poll_payload "ven1") =
  ([Handled "oadrPoll" [("ven_id", Val (SStr "ven1"))]], Ok (RFailed _)).
Proof.
  eapply (with_some C88_broken) with (vtn_name := "vtn") (d := [("ven_id", VStr "ven1")]) (x := KeyError).
  - apply some_working.
  - eapply poll_sends; [apply (some_working ["oadrPoll"] refuses)|lia|plain_text|printed_literals].
  - welcomed.
  - now apply handed_plain.
  - reflexivity.
  - reflexivity.
  - discriminate.
Qed.

Print Assumptions C88_told.
Print Assumptions C88_reregister.
Print Assumptions C88_unsupported.
Print Assumptions C88_untold.
Print Assumptions C88_broken.
