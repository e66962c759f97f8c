(** C91: every message that the schema of OpenADR allows can be read, whoever
    wrote it. *)
From Coq Require Import ZArith String Ascii List Bool Lia.
From Verif.Base Require Import Result Dict PyStr.
From Verif.Model Require Import Duration DateTime Text Normalize Xml XmlText Schema SchemaTypes.
From Verif.Spec Require Import TextSpec MessageSpec ReadableSpec.
From Verif.Proofs Require Import ReadableProofs.
Import ListNotations.
Local Open Scope string_scope.

(** [depth] bounds the recursion of normalize_dict in the model. *)
Definition C91_full : Prop := forall num uri foreign s x depth,
  reads_floats num -> validate_xml_schema uri foreign s = Ok x -> 12 <= depth ->
  exists kind p, In kind kinds /\ parse_message num depth s = Ok (kind, p).

(** It holds for documents with nothing from other schemas in them, if every
    text of digits and dots is a number, the times exist, no duration is too
    long and intervals are numbered. *)
Theorem C91_valid_messages_are_read_partial : forall num uri s x depth,
  reads_floats num -> validate_xml_schema uri (fun _ => false) s = Ok x ->
  (forall object, envelope x object -> readable num (plain_xml object)) -> 12 <= depth ->
  exists kind p, In kind kinds /\ parse_message num depth s = Ok (kind, p).
Proof.
  intros num uri s x depth F H R D. destruct (valid_envelope uri s x H) as [X (object & E & A)].
  exact (envelope_reads num uri s x object depth F X E A (R object E) D).
Qed.

(** The same for envelopes with a signature and with attributes such as
    xsi:schemaLocation. *)
Theorem C91_enveloped_messages_are_read_partial : forall num uri s x object depth,
  reads_floats num -> read_expanded s = Some x -> envelope x object -> alone uri object -> readable num (plain_xml object) -> 12 <= depth ->
  exists kind p, In kind kinds /\ parse_message num depth s = Ok (kind, p).
Proof. intros num uri s x object depth F X E A R D. exact (envelope_reads num uri s x object depth F X E A R D). Qed.

(** The condition on numbers is needed: a poll is read exactly if the id of
    the VEN, when it is written like a number that is not an integer, is one. *)
Theorem C91_poll_is_read_iff : forall num s x object on oa ot pa pt id depth,
  read_expanded s = Some x -> envelope x object -> object = Elem on oa ot [Elem (in_oadr "oadrPoll") pa pt [Elem (in_ei "venID") [] id []]] ->
  blank_text ot = true -> blank_text pt = true ->
  ((exists p, parse_message num (S depth) s = Ok ("oadrPoll", p)) <-> (forall w, flattening id w -> like_number w -> ~ like_integer w -> float_ok num w = true)).
Proof. intros num s x object on oa ot pa pt id depth. apply poll_reads. Qed.

(** ** Instances *)
Definition strict : numbers := mk_numbers (fun t => matches float_pattern t) (fun _ => Raise ValueError) (fun _ => "").
Definition any_uri : string -> bool := fun _ => true.
Definition enveloped (message : string) : string :=
  "<?xml version=""1.0"" encoding=""UTF-8""?>
<o:oadrPayload xmlns:o=""http://openadr.org/oadr-2.0b/2012/07"" xmlns:ei=""http://docs.oasis-open.org/ns/energyinterop/201110"" xmlns:p=""http://docs.oasis-open.org/ns/energyinterop/201110/payloads"" xmlns:c=""urn:ietf:params:xml:ns:icalendar-2.0"" xmlns:s=""urn:ietf:params:xml:ns:icalendar-2.0:stream"">
 <o:oadrSignedObject>
" ++ message ++ "
 </o:oadrSignedObject>
</o:oadrPayload>".
Definition poll_text (id : string) : string := enveloped ("<o:oadrPoll ei:schemaVersion=""2.0b""><ei:venID>" ++ id ++ "</ei:venID></o:oadrPoll>").
(** A report as this package does not write them: the status of a resource. *)
Definition status_text (time duration uid : string) : string := enveloped ("<o:oadrUpdateReport ei:schemaVersion=""2.0b"">
 <p:requestID>r7</p:requestID>
 <o:oadrReport>
  <c:dtstart><c:date-time>2020-01-01T12:00:00Z</c:date-time></c:dtstart>
  <s:intervals>
   <ei:interval>
    <c:duration><c:duration>" ++ duration ++ "</c:duration></c:duration>
    <c:uid><c:text>" ++ uid ++ "</c:text></c:uid>
    <o:oadrReportPayload>
     <ei:rID>status</ei:rID>
     <o:oadrPayloadResourceStatus>
      <o:oadrOnline>true</o:oadrOnline>
      <o:oadrManualOverride>false</o:oadrManualOverride>
      <o:oadrLoadControlState><o:oadrCapacity><o:oadrCurrent> 5e3 </o:oadrCurrent></o:oadrCapacity></o:oadrLoadControlState>
     </o:oadrPayloadResourceStatus>
    </o:oadrReportPayload>
    <o:oadrReportPayload><ei:rID>power</ei:rID><ei:payloadFloat><ei:value>-1.25E+2</ei:value></ei:payloadFloat></o:oadrReportPayload>
   </ei:interval>
  </s:intervals>
  <ei:reportRequestID>0</ei:reportRequestID>
  <ei:reportSpecifierID>spec</ei:reportSpecifierID>
  <ei:createdDateTime>" ++ time ++ "</ei:createdDateTime>
 </o:oadrReport>
 <ei:venID>ven1</ei:venID>
</o:oadrUpdateReport>").
Definition is_valid (s : string) : bool := match validate_xml_schema any_uri (fun _ => false) s with Ok _ => true | Raise _ => false end.
Definition problem (s : string) : option exn := match parse_message strict 12 s with Ok _ => None | Raise e => Some e end.

Lemma strict_reads_floats : reads_floats strict.
Proof. intros t H. exact H. Qed.

Theorem C91_every_valid_message_is_read_refuted : ~ C91_full.
Proof.
  intro H. pose (s := poll_text "192.168.1.1").
  destruct (validate_xml_schema any_uri (fun _ => false) s) as [x|e] eqn:E; [|vm_compute in E; discriminate E].
  destruct (H strict any_uri (fun _ => false) s x 12 strict_reads_floats E (le_n 12)) as (kind & p & _ & P).
  vm_compute in P. discriminate P.
Qed.

Lemma only_object n a t o object : envelope (Elem n a t [o]) object -> object = o.
Proof. intros (attrs & text & [|b [|c l]] & X & _); [now injection X|discriminate X|discriminate X]. Qed.

(** The hypotheses of the first theorem are met by the report, which is then
    read. *)
Definition status : string := status_text "2020-01-01T12:00:10.5Z" "PT10S" "0".
Example C91_example_status : exists x, validate_xml_schema any_uri (fun _ => false) status = Ok x /\ (forall object, envelope x object -> readable strict (plain_xml object)) /\ exists kind p, In kind kinds /\ parse_message strict 12 status = Ok (kind, p).
Proof.
  destruct (validate_xml_schema any_uri (fun _ => false) status) as [x|e] eqn:E; [|vm_compute in E; discriminate E].
  assert (R : forall object, envelope x object -> readable strict (plain_xml object)).
  { intros object V. apply readableb_spec. vm_compute in E. injection E as <-. apply only_object in V. rewrite V. vm_compute. reflexivity. }
  exists x. split; [reflexivity|]. split; [exact R|].
  exact (C91_valid_messages_are_read_partial strict any_uri status x 12 strict_reads_floats E R (le_n 12)).
Qed.
Example C91_example_read : match parse_message strict 12 status with Ok (kind, p) => kind = "oadrUpdateReport" /\ map fst p = ["request_id"; "reports"; "ven_id"] | Raise _ => False end.
Proof. vm_compute. split; reflexivity. Qed.

(** Each condition is needed.  Messages that the schema allows and that the
    VTN does not read: an id with several dots, the end of a day as 24:00,
    a duration of more than 10^9 days, an interval named by a word. *)
Example C91_example_ids : map (fun id => (is_valid (poll_text id), problem (poll_text id))) ["ven1"; "10.0"; "12"; "192.168.1.1"; "..."]
  = [(true, None); (true, None); (true, None); (true, Some ValueError); (true, Some ValueError)].
Proof. vm_compute. reflexivity. Qed.
Example C91_example_others : map (fun s => (is_valid s, problem s)) [status_text "2020-01-01T24:00:00Z" "PT10S" "0"; status_text "2020-01-01T12:00:00Z" "P1000000000D" "0"; status_text "2020-01-01T12:00:00Z" "PT10S" "first"]
  = [(true, Some ValueError); (true, Some OverflowError); (true, Some ValueError)].
Proof. vm_compute. reflexivity. Qed.

(** A signed poll with attributes that the schema of OpenADR does not define. *)
Definition signed : string := "<a:oadrPayload xmlns:a=""http://openadr.org/oadr-2.0b/2012/07"" xmlns:xsi=""http://www.w3.org/2001/XMLSchema-instance"" xsi:schemaLocation=""http://openadr.org/oadr-2.0b/2012/07 oadr_20b.xsd""><Signature xmlns=""http://www.w3.org/2000/09/xmldsig#""><SignedInfo/></Signature>
<a:oadrSignedObject><a:oadrPoll b:schemaVersion=""2.0b"" xmlns:b=""http://docs.oasis-open.org/ns/energyinterop/201110""><b:venID>ven.1.2</b:venID></a:oadrPoll></a:oadrSignedObject></a:oadrPayload>".
Example C91_example_signed : exists x object, read_expanded signed = Some x /\ envelope x object /\ alone any_uri object /\ readable strict (plain_xml object) /\ parse_message strict 12 signed = Ok ("oadrPoll", [("ven_id", VStr "ven.1.2")]).
Proof.
  eexists. eexists. split; [vm_compute; reflexivity|]. split.
  { eexists. eexists. eexists [_]. split; [reflexivity|]. split; [reflexivity|]. split; [constructor; [reflexivity|constructor]|reflexivity]. }
  split; [vm_compute; reflexivity|]. split; [apply readableb_spec; vm_compute; reflexivity|vm_compute; reflexivity].
Qed.

Print Assumptions C91_valid_messages_are_read_partial.
Print Assumptions C91_enveloped_messages_are_read_partial.
Print Assumptions C91_poll_is_read_iff.
Print Assumptions C91_every_valid_message_is_read_refuted.
