(** C97: who is not authenticated gets nothing done. *)
From Coq Require Import ZArith String List Bool Lia.
From Verif.Base Require Import Result Dict PyStr.
From Verif.Model Require Import DateTime Normalize Xml XmlText Schema SchemaTypes VtnService Exchange Handling.
From Verif.Spec Require Import ReadableSpec VtnServiceSpec UnnamedSpec DeliveredSpec.
From Verif.Proofs Require Import UnnamedProofs DeliveredProofs.
Import ListNotations.
Local Open Scope string_scope.

Section Vtn.
(** See Model/Exchange.v. *)
Context (other : val -> string) (num : numbers) (depth : nat) (uri : string -> bool) (foreign : xml -> bool)
        (decimals : Z -> nat -> string) (opaque : nat -> val).
Notation world_of := (vtn_world other num depth uri foreign decimals opaque).
Notation handled_at v n text := (fst (handler (world_of v) (v_config v) (posted n text))).
Notation authentic_at v n text := (authentic (world_of v) (v_config v) (posted n text) text).

(** Over TLS, with a lookup: something is done with a message other than those
    that come before a registration only if it is from the VEN that it names. *)
Definition C97_statement : Prop := forall v n text s t q, n_secure n = true -> has_lookup (v_config v) ->
  In (Handled t q) (handled_at v n text) -> effective s t q -> ~ opening t ->
  exists ven, pget "ven_id" q = Some ven /\ authentic_at v n text t ven.

(** It holds for every message that names its sender. *)
Theorem C97_named : forall v n text t q ven, n_secure n = true -> has_lookup (v_config v) -> In (Handled t q) (handled_at v n text) ->
  pget "ven_id" q = Some ven -> authentic_at v n text t ven.
Proof.
  intros v n text t q ven SEC HL H V. destruct (handled_parsed other num depth uri foreign decimals opaque v n text t q H) as (d & _ & _ & A). exact (A ven SEC V HL).
Qed.

(** The schema demands the id in polls, in requests for events and in
    responses to events; it is then in the payload, wherever it is in the
    message.  So these are handled for authenticated VENs only. *)
Theorem C97_always_named : forall v n text x object t q, n_secure n = true -> has_lookup (v_config v) ->
  read_expanded text = Some x -> envelope x object -> alone uri object ->
  In (Handled t q) (handled_at v n text) -> In t always_named ->
  exists ven, pget "ven_id" q = Some ven /\ authentic_at v n text t ven.
Proof.
  intros v n text x object t q SEC HL X E A H I. destruct (handled_parsed other num depth uri foreign decimals opaque v n text t q H) as (d & P & G & AU).
  destruct (vget "ven_id" d) as [w|] eqn:V.
  - exists (val_member w). split; [exact G|]. exact (AU _ SEC G HL).
  - exfalso. destruct (message_named num uri text x object depth t d X E A P V) as (_ & _ & N). now apply N.
Qed.

(** For the other messages it holds, unless there is no id in the message and
    it is a report with data, the end of a registration, or one that the user
    handles. *)
Theorem C97_sender_partial : forall v n text x object s t q, n_secure n = true -> has_lookup (v_config v) ->
  read_expanded text = Some x -> envelope x object -> alone uri object ->
  In (Handled t q) (handled_at v n text) -> effective s t q -> ~ opening t ->
  (exists ven, pget "ven_id" q = Some ven /\ authentic_at v n text t ven) \/
  (unnamed object /\ (t = "oadrUpdateReport" \/ t = "oadrCancelPartyRegistration" \/
                      t = "oadrCreatedReport" /\ s_created_report s = true \/ t = "oadrRegisteredReport" /\ s_registered_report s = true)).
Proof.
  intros v n text x object s t q SEC HL X E A H EF O. destruct (handled_parsed other num depth uri foreign decimals opaque v n text t q H) as (d & P & G & AU).
  destruct (vget "ven_id" d) as [w|] eqn:V.
  - left. exists (val_member w). split; [exact G|]. exact (AU _ SEC G HL).
  - right. destruct (message_named num uri text x object depth t d X E A P V) as (U & _ & _). split; [exact U|].
    destruct (unnamed_effective s t q G EF) as [W|W]; [contradiction | exact W].
Qed.

(** What is left open: a message without an id that the schema allows gets to
    its handler, whatever the connection, its certificate, the lookups and the
    signature are. *)
Theorem C97_unnamed_handled : forall v n text x t d, validate_xml_schema uri foreign text = Ok x -> parse_message num depth text = Ok (t, d) -> vget "ven_id" d = None ->
  ~ opening t -> t <> "oadrResponse" -> In t (c_types (v_config v)) -> for_us (v_config v) (received d) -> v_hook v "before_parse" = Ok tt -> v_hook v "before_handle" = Ok tt ->
  In (Handled t (received d)) (handled_at v n text).
Proof.
  intros v n text x t d S P V O R T F H1 H2. apply VtnServiceProofs.handled_iff.
  assert (N : pget "ven_id" (received d) = None) by (rewrite pget_received, V; reflexivity).
  exists text, (received d). split.
  - split; [exists ""; reflexivity|]. split; [reflexivity|]. split; [exact H1|]. cbn [w_schema w_parse vtn_world]. rewrite S, P. split; reflexivity.
  - split; [exact R|]. split; [exact F|]. split; [right; left; exact N|]. split; [intros ven _ W; rewrite N in W; discriminate W|]. split; [|split; [exact H2 | exact T]].
    right. split; [|reflexivity]. intros (_ & E). apply O. now left.
Qed.
End Vtn.

(** Its data are then given to the user, report by report. *)
Theorem C97_reports_taken : forall s d l, s_callbacks s = [] -> vget "reports" d = Some (VList l) ->
  (forall r, In r l -> exists r' id, r = VDict r' /\ vget "report_request_id" r' = Some id) ->
  handling s "oadrUpdateReport" (received d) = (repeat (Calls "on_update_report") (length l), Returns).
Proof.
  intros s d l C R I. unfold handling. cbn [String.eqb Ascii.eqb Bool.eqb]. unfold update_report. rewrite pget_received, R. cbn [option_map val_member].
  unfold Handling.ended. now rewrite (updates_called s l C I).
Qed.

(** If there are callbacks: each that there is for a request and an r_id gets
    all the values of the r_id in the report. *)
Theorem C97_values_taken : forall s d l, s_callbacks s <> [] -> vget "reports" d = Some (VList l) -> Forall complete l ->
  exists actss, Forall2 (given s) l actss /\ handling s "oadrUpdateReport" (received d) = (concat actss, Returns).
Proof.
  intros s d l C R F. destruct (reports_given s l C F) as (actss & G & E). exists actss. split; [exact G|]. unfold handling. cbn [String.eqb Ascii.eqb Bool.eqb]. unfold update_report. rewrite pget_received, R. cbn [option_map val_member].
  unfold Handling.ended. now rewrite E.
Qed.
(** What the other handlers do without an id. *)
Theorem C97_without_id : forall s p t acts o, pget "ven_id" p = None -> without_id s p t acts o -> handling s t p = (acts, o).
Proof. exact handled_without. Qed.

(** ** A VTN that knows nobody and verifies signatures, and somebody without a
    certificate. *)
Definition C97_full : Prop := forall other num depth uri foreign decimals opaque, C97_statement other num depth uri foreign decimals opaque.
Definition strict : numbers := mk_numbers (fun t => matches float_pattern t) (fun _ => Raise ValueError) (fun _ => "").
Definition config_of (known : list string) : config :=
  mk_cfg (SStr "vtn") (Some (fun _ v => match v with Val (SStr s) => Ok (if existsb (String.eqb s) known then Some [("registration_id", SStr "r1"); ("fingerprint", SStr "AA")] else None) | _ => Ok None end))
    None true ["oadrUpdateReport"; "oadrRegisterReport"; "oadrCreatedReport"; "oadrRegisteredReport"; "oadrCancelPartyRegistration"; "oadrPoll"] (fun _ _ => Ok HNone).
Definition vtn_of (known : list string) : vtn :=
  mk_vtn (config_of known) (fun _ => mkdt 2020 1 1 0 0 0 0 0) (fun _ => None) (fun _ => Ok "AA") (fun _ => if existsb (String.eqb "ven1") known then Ok tt else Raise InvalidSignature) (fun _ => Ok tt) (fun _ => Ok tt) "id1" "error".
Definition nobody : connection := mk_connection true (Ok None).
Definition at_vtn (known : list string) (n : connection) (text : string) : list effect :=
  fst (handler (vtn_world (fun _ => "") strict 12 (fun _ => true) (fun _ => false) (fun _ _ => "") (fun _ => VNone) (vtn_of known)) (config_of known) (posted n text)).
Definition enveloped (message : string) : string :=
  "<o:oadrPayload xmlns:o=""http://openadr.org/oadr-2.0b/2012/07"" xmlns:ei=""http://docs.oasis-open.org/ns/energyinterop/201110"" xmlns:p=""http://docs.oasis-open.org/ns/energyinterop/201110/payloads"" xmlns:c=""urn:ietf:params:xml:ns:icalendar-2.0"" xmlns:s=""urn:ietf:params:xml:ns:icalendar-2.0:stream""><o:oadrSignedObject>"
  ++ message ++ "</o:oadrSignedObject></o:oadrPayload>".
Definition report_text (ven : string) : string := enveloped ("<o:oadrUpdateReport ei:schemaVersion=""2.0b""><p:requestID>r7</p:requestID><o:oadrReport>
  <s:intervals><ei:interval><c:dtstart><c:date-time>2020-01-01T12:00:00Z</c:date-time></c:dtstart>
    <o:oadrReportPayload><ei:rID>power</ei:rID><ei:payloadFloat><ei:value>99.5</ei:value></ei:payloadFloat></o:oadrReportPayload></ei:interval></s:intervals>
  <ei:reportRequestID>q1</ei:reportRequestID><ei:reportSpecifierID>spec</ei:reportSpecifierID><ei:createdDateTime>2020-01-01T12:00:10Z</ei:createdDateTime>
 </o:oadrReport>" ++ ven ++ "</o:oadrUpdateReport>").
Definition cancel_text (ven : string) : string := enveloped ("<o:oadrCancelPartyRegistration ei:schemaVersion=""2.0b""><p:requestID>r8</p:requestID><ei:registrationID>reg1</ei:registrationID>" ++ ven ++ "</o:oadrCancelPartyRegistration>").
Definition ven_element : string := "<ei:venID>ven1</ei:venID>".
Definition plain_services : services := mk_services false [] false false false.
Definition done (s : services) (l : list effect) : list (string * (list act * outcome)) := map (fun e => match e with Handled t q => (t, handling s t q) end) l.

Theorem C97_refuted : ~ C97_full.
Proof.
  intro H. destruct (at_vtn [] nobody (report_text "")) as [|[t q] l] eqn:E; [vm_compute in E; discriminate E|].
  destruct (H (fun _ => "") strict 12 (fun _ => true) (fun _ => false) (fun _ _ => "") (fun _ => VNone) (vtn_of []) nobody (report_text "") plain_services t q) as (ven & V & fp & C & _).
  - reflexivity.
  - right. discriminate.
  - change (In (Handled t q) (at_vtn [] nobody (report_text ""))). rewrite E. now left.
  - vm_compute in E. injection E as <- <- _. left. vm_compute. discriminate.
  - vm_compute in E. injection E as <- <- _. intros [O|O]; discriminate O.
  - discriminate C.
Qed.

(** With the id the same report is refused; without it the data are taken.  The
    same goes for the end of a registration. *)
Example C97_example_report : (done plain_services (at_vtn [] nobody (report_text ven_element)), done plain_services (at_vtn [] nobody (report_text "")))
  = ([], [("oadrUpdateReport", ([Calls "on_update_report"], Returns))]).
Proof. vm_compute. reflexivity. Qed.
Example C97_example_callback : exists time, done (mk_services false [(VStr "q1", VStr "power")] false false false) (at_vtn [] nobody (report_text ""))
  = [("oadrUpdateReport", ([Delivers (VStr "q1") (VStr "power") [(VTime time, VFloat "99.5")]], Returns))].
Proof. eexists. vm_compute. reflexivity. Qed.
(** Two values for one r_id, and one for another that nobody asked for. *)
Definition reading_of (time value : Z) (r_id : string) : val := VDict [("dtstart", VInt time); ("report_payload", VDict [("r_id", VStr r_id); ("value", VInt value)])].
Definition three_readings : val := VDict [("report_request_id", VStr "q1"); ("intervals", VList [reading_of 0 5 "power"; reading_of 0 6 "energy"; reading_of 1 7 "power"])].
Example C97_example_readings : complete three_readings /\
  handling (mk_services false [(VStr "q1", VStr "power"); (VStr "q2", VStr "energy")] false false false) "oadrUpdateReport" [("reports", Other (VList [three_readings]))]
  = ([Delivers (VStr "q1") (VStr "power") [(VInt 0, VInt 5); (VInt 1, VInt 7)]], Returns).
Proof.
  split; [|vm_compute; reflexivity]. unfold complete. eexists. exists (VStr "q1"). eexists. exists [(VStr "power", (VInt 0, VInt 5)); (VStr "energy", (VInt 0, VInt 6)); (VStr "power", (VInt 1, VInt 7))].
  split; [reflexivity|]. split; [reflexivity|]. split; [reflexivity|].
  repeat constructor; eexists; eexists; (split; [reflexivity|]); repeat (split; [reflexivity || discriminate|]); discriminate.
Qed.
Example C97_example_without : without_id plain_services [("request_id", Val (SStr "r1"))] "oadrCreatedReport" [] (Raises KeyError) /\ without_id plain_services [] "oadrRegisterReport" [] Returns.
Proof. split; constructor; reflexivity. Qed.
Example C97_example_cancel : (done plain_services (at_vtn [] nobody (cancel_text ven_element)), done plain_services (at_vtn [] nobody (cancel_text "")))
  = ([], [("oadrCancelPartyRegistration", ([Calls "on_cancel_party_registration"], Returns))]).
Proof. vm_compute. reflexivity. Qed.
(** A VEN that is known and has its certificate: the hypotheses of the first
    theorems are met. *)
Definition poll_text : string := enveloped ("<o:oadrPoll ei:schemaVersion=""2.0b"">" ++ ven_element ++ "</o:oadrPoll>").
Example C97_example_poll : exists x object, read_expanded poll_text = Some x /\ envelope x object /\ alone (fun _ => true) object /\
  at_vtn ["ven1"] (mk_connection true (Ok (Some "AA"))) poll_text = [Handled "oadrPoll" [("ven_id", Val (SStr "ven1"))]] /\ In "oadrPoll" always_named /\
  at_vtn ["ven1"] nobody poll_text = [].
Proof.
  eexists. eexists. split; [vm_compute; reflexivity|]. split.
  { eexists. eexists. exists []. split; [reflexivity|]. split; [reflexivity|]. split; [constructor|reflexivity]. }
  split; [vm_compute; reflexivity|]. split; [vm_compute; reflexivity|]. split; [cbn; tauto | vm_compute; reflexivity].
Qed.
Example C97_example_unnamed : exists x object t d, read_expanded (report_text "") = Some x /\ envelope x object /\ alone (fun _ => true) object /\ unnamed object /\
  validate_xml_schema (fun _ => true) (fun _ => false) (report_text "") = Ok x /\ parse_message strict 12 (report_text "") = Ok (t, d) /\ vget "ven_id" d = None /\ for_us (config_of []) (received d).
Proof.
  eexists. eexists. eexists. eexists. split; [vm_compute; reflexivity|]. split.
  { eexists. eexists. exists []. split; [reflexivity|]. split; [reflexivity|]. split; [constructor|reflexivity]. }
  split; [vm_compute; reflexivity|]. split.
  { eexists. eexists. eexists. eexists. eexists. eexists. eexists. split; [reflexivity|]. intros c I. repeat (destruct I as [<-|I]; [vm_compute; discriminate|]). destruct I. }
  split; [vm_compute; reflexivity|]. split; [vm_compute; reflexivity|]. split; [vm_compute; reflexivity|]. left. vm_compute. reflexivity.
Qed.

(** The condition on the document is needed: an empty venID with an attribute
    xsi:type is dropped by normalize_dict, and the poll gets to its handler, which
    then fails. *)
Definition typed_text : string := enveloped "<o:oadrPoll ei:schemaVersion=""2.0b""><ei:venID xmlns:xsi=""http://www.w3.org/2001/XMLSchema-instance"" xmlns:xs=""http://www.w3.org/2001/XMLSchema"" xsi:type=""xs:string""/></o:oadrPoll>".
Example C97_example_typed :
  done plain_services (fst (handler (vtn_world (fun _ => "") strict 12 (fun _ => true) (fun _ => true) (fun _ _ => "") (fun _ => VNone) (vtn_of [])) (config_of []) (posted nobody typed_text)))
  = [("oadrPoll", ([], Raises KeyError))].
Proof. vm_compute. reflexivity. Qed.

Print Assumptions C97_named.
Print Assumptions C97_always_named.
Print Assumptions C97_sender_partial.
Print Assumptions C97_unnamed_handled.
Print Assumptions C97_reports_taken.
Print Assumptions C97_values_taken.
Print Assumptions C97_without_id.
Print Assumptions C97_refuted.
