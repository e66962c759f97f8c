(** C98: a VEN deals with every answer to its poll that the schema allows. *)
From Coq Require Import ZArith String List Bool Lia.
From Verif.Base Require Import Result Dict PyStr.
From Verif.Model Require Import DateTime Text Normalize Xml XmlText Schema SchemaTypes Polled.
From Verif.Spec Require Import Timestamp TextSpec MessageSpec ReadableSpec ClientEventSpec PolledSpec.
From Verif.Proofs Require Import DateTimeProofs TextProofs NormalizeProofs ReactionProofs AnsweredProofs.
From Verif.Model Require ClientEvents.
From Verif.Proofs Require ClientEventProofs.
Import ListNotations.
Local Open Scope string_scope.

(** Whatever the schema lets a VTN send, once it is parsed, does not make the VEN
    raise an exception or refuse its events for its own mistake, and cancels the
    reports that are to be cancelled. *)
Definition C98_full : Prop := forall num uri v depth s x object t p,
  read_expanded s = Some x -> envelope x object -> alone uri object -> parse_message num depth s = Ok (t, p) -> obliging v -> dealt v t p.

(** It holds for messages other than oadrUpdateReport whose times are in UTC, whose
    ids of specifiers and of the VTN are words (the latter not in lower case),
    and which cancel one report at a time. *)
Theorem C98_dealt_partial : forall num uri v depth s x object t p,
  read_expanded s = Some x -> envelope x object -> alone uri object -> parse_message num depth s = Ok (t, p) -> obliging v ->
  t <> "oadrUpdateReport" -> everywhere in_utc object -> everywhere specifier_in_words object -> everywhere vtn_in_words object -> everywhere for_one object ->
  dealt v t p.
Proof. intros num uri v depth s x object t p RD EN AL PA OB. exact (dealt_with uri num v s x object depth t p RD EN AL PA OB). Qed.
Print Assumptions C98_dealt_partial.

(** Events, exactly: the VEN answers each event that asks for it and is not over,
    and no other, under the id of the request; it takes an exception of its own
    for a refusal if and only if the id of the VTN is not a text or is in lower
    case.  But if one of the events to be answered does not begin at a time,
    it answers none. *)
Theorem C98_events : forall num uri v depth s x object t p,
  read_expanded s = Some x -> envelope x object -> alone uri object -> parse_message num depth s = Ok (t, p) -> obliging v -> t = "oadrDistributeEvent" ->
  ((forall e, In e (events_of p) -> to_answer e -> begins e) ->
     exists caught q rs, react v t p = Ok (match rs with [] => Quiet | _ => Responds caught q rs end)
       /\ (rs <> [] -> (caught = None <-> proper p) /\ vget "request_id" p = Some q)
       /\ (forall r, In r rs -> exists e, In e (events_of p) /\ to_answer e /\ ~ is_over v e /\ about e r)
       /\ (forall e, In e (events_of p) -> to_answer e -> ~ is_over v e -> exists r, In r rs /\ about e r))
  /\ ((exists e, In e (events_of p) /\ to_answer e /\ ~ begins e) -> react v t p = Raise AttributeError).
Proof.
  intros num uri v depth s x object t p RD EN AL PA OB E. destruct (events_answered uri num v s x object depth t p RD EN AL PA E OB) as (A & B & _). now split.
Qed.
Print Assumptions C98_events.

(** Requests for reports, exactly: the VEN says which it has, makes a plan for
    each, and answers with 452 if and only if it has refused one; unless one of
    the specifiers is named by something that is not a text: then it says
    nothing. *)
Theorem C98_requests : forall num uri v depth s x object t p,
  read_expanded s = Some x -> envelope x object -> alone uri object -> parse_message num depth s = Ok (t, p) -> t = "oadrCreateReport" ->
  ((forall r, In r (requests_of p) -> in_text (specifier_of r)) ->
     exists code plans ids q, react v t p = Ok (Creates code plans ids q) /\ vget "request_id" p = Some q
       /\ Forall2 for_request (requests_of p) plans /\ map Some ids = map request_id_of (requests_of p) /\ (code = 452 /\ In Refused plans \/ code = 200 /\ ~ In Refused plans)%Z)
  /\ ((exists r, In r (requests_of p) /\ ~ in_text (specifier_of r)) -> react v t p = Raise TypeError).
Proof.
  intros num uri v depth s x object t p RD EN AL PA E. destruct (requests_answered uri num v s x object depth t p RD EN AL PA E) as (A & B & _). split; [|exact B].
  intros T. destruct (A T) as (plans & ids & q & R & Q & F & I). exists (if refused plans then 452 else 200)%Z, plans, ids, q. repeat (split; [assumption|]). unfold refused. destruct (existsb _ plans) eqn:X.
  - left. split; [reflexivity|]. apply existsb_exists in X as ([] & J & X); try discriminate X. exact J.
  - right. split; [reflexivity|]. intros J. assert (Y : existsb (fun p => match p with Refused => true | _ => false end) plans = true) by (apply existsb_exists; now exists Refused). congruence.
Qed.
Print Assumptions C98_requests.

(** The same for the requests in the answer to the registration of reports,
    where there are any. *)
Theorem C98_registered : forall num uri v depth s x object t p,
  read_expanded s = Some x -> envelope x object -> alone uri object -> parse_message num depth s = Ok (t, p) -> t = "oadrRegisteredReport" ->
  ((forall r, In r (requests_of p) -> in_text (specifier_of r)) ->
     (requests_of p = [] /\ react_registered v p = Ok Quiet)
     \/ exists code plans ids q, react_registered v p = Ok (Creates code plans ids q) /\ (exists d, vget "response" p = Some d /\ member "request_id" d = Some q)
          /\ Forall2 for_request (requests_of p) plans /\ map Some ids = map request_id_of (requests_of p))
  /\ ((exists r, In r (requests_of p) /\ ~ in_text (specifier_of r)) -> react_registered v p = Raise TypeError)
  /\ (everywhere specifier_in_words object -> forall r, In r (requests_of p) -> in_text (specifier_of r)).
Proof.
  intros num uri v depth s x object t p RD EN AL PA E. destruct (registered_answered uri num v s x object depth t p RD EN AL PA E) as (A & B & C). split; [|now split].
  intros T. destruct (A T) as [N|(plans & ids & q & R & Q & F & I)]; [now left|]. right. eexists. exists plans, ids, q. split; [exact R|]. now split.
Qed.
Print Assumptions C98_registered.

(** The end of a report, exactly: it is cancelled if and only if the message
    names one report, and that is one that the VEN sends. *)
Theorem C98_cancels : forall num uri v depth s x object t p,
  read_expanded s = Some x -> envelope x object -> alone uri object -> parse_message num depth s = Ok (t, p) -> t = "oadrCancelReport" ->
  exists i q, vget "report_request_id" p = Some i /\ vget "request_id" p = Some q
    /\ (In i (v_requests v) -> exists f, react v t p = Ok (Cancels i q f)) /\ (~ In i (v_requests v) -> react v t p = Ok (Missing i))
    /\ (everywhere for_one object -> forall l, i <> VList l).
Proof.
  intros num uri v depth s x object t p RD EN AL PA E. destruct (cancel_answered uri num v s x object depth t p RD EN AL PA E) as (q & i & f & GQ & GI & GF & R & NL). exists i, q. split; [exact GI|]. split; [exact GQ|]. split; [|split; [|exact NL]].
  - intros J. assert (X : existsb (same i) (v_requests v) = true) by (apply existsb_exists; exists i; split; [exact J | apply same_refl]). rewrite X in R. eexists. exact R.
  - intros N. destruct (existsb (same i) (v_requests v)) eqn:X; [|exact R]. exfalso. apply existsb_exists in X as (i' & J & S). apply same_eq in S. subst i'. contradiction.
Qed.
Print Assumptions C98_cancels.

(** The other messages, exactly: an oadrUpdateReport is the one that cannot be
    dealt with at all; a VEN without a registration ignores the end of one, and
    ends its own only if the id is the same. *)
Theorem C98_others : forall num uri v depth s x object t p,
  read_expanded s = Some x -> envelope x object -> alone uri object -> parse_message num depth s = Ok (t, p) ->
  (t = "oadrUpdateReport" -> react v t p = Raise AttributeError)
  /\ (t = "oadrResponse" -> react v t p = Ok Quiet) /\ (t = "oadrRequestReregistration" -> react v t p = Ok Reregisters)
  /\ (t = "oadrRegisterReport" -> exists q, vget "request_id" p = Some q /\ react v t p = Ok (Declines q))
  /\ (t = "oadrCancelPartyRegistration" -> exists q i, vget "request_id" p = Some q /\ vget "registration_id" p = Some i
        /\ (v_registration v = VNone -> react v t p = Ok Quiet)
        /\ (v_registration v <> VNone -> v_registration v = i -> react v t p = Ok (Deregisters q))
        /\ (v_registration v <> VNone -> v_registration v <> i -> react v t p = Ok (Mistaken q))).
Proof.
  intros num uri v depth s x object t p RD EN AL PA. split; [now intros ->|]. split; [now intros ->|]. split; [now intros ->|]. split.
  - intros E. destruct (register_parsed uri num s x object depth t p RD EN AL PA E) as (q & GQ). exists q. split; [exact GQ|]. rewrite E. unfold react. cbn [String.eqb Ascii.eqb Bool.eqb item]. now rewrite GQ.
  - intros E. destruct (leave_parsed uri num s x object depth t p RD EN AL PA E) as (q & i & GQ & GI). exists q, i. split; [exact GQ|]. split; [exact GI|]. rewrite E. clear E.
    change (react v "oadrCancelPartyRegistration" p) with (cancel_registration v (VDict p)). unfold cancel_registration, Polled.within.
    assert (VM : vmem "registration_id" p = true) by (unfold vmem, mem; unfold vget in GI; now rewrite GI). rewrite VM. cbn [bind negb item]. rewrite GI. cbn [bind]. rewrite GQ. cbn [bind].
    split; [intros ->; reflexivity|]. split.
    + intros N E. assert (SI : same (v_registration v) i = true) by (rewrite E; apply same_refl). revert N SI. clear. destruct (v_registration v); intros N SI; [now elim N | now rewrite SI ..].
    + intros N D. destruct (same (v_registration v) i) eqn:SI; [apply same_eq in SI; contradiction|]. revert N SI. clear. destruct (v_registration v); intros N SI; [now elim N | now rewrite SI ..].
Qed.
Print Assumptions C98_others.

(** ** Cases *)
Definition strict : numbers := mk_numbers (fun t => matches float_pattern t) (fun _ => Raise ValueError) (fun _ => "").
Definition enveloped (message : string) : string :=
  "<o:oadrPayload xmlns:o=""http://openadr.org/oadr-2.0b/2012/07"" xmlns:ei=""http://docs.oasis-open.org/ns/energyinterop/201110"" xmlns:p=""http://docs.oasis-open.org/ns/energyinterop/201110/payloads"" xmlns:e=""http://docs.oasis-open.org/ns/emix/2011/06"" xmlns:c=""urn:ietf:params:xml:ns:icalendar-2.0"" xmlns:s=""urn:ietf:params:xml:ns:icalendar-2.0:stream""><o:oadrSignedObject>"
  ++ message ++ "</o:oadrSignedObject></o:oadrPayload>".
Definition update_text : string := enveloped "<o:oadrUpdateReport ei:schemaVersion=""2.0b""><p:requestID>r1</p:requestID></o:oadrUpdateReport>".
Definition request_text (id specifier : string) : string :=
  "<o:oadrReportRequest><ei:reportRequestID>" ++ id ++ "</ei:reportRequestID><ei:reportSpecifier><ei:reportSpecifierID>" ++ specifier ++ "</ei:reportSpecifierID><c:granularity><c:duration>PT10S</c:duration></c:granularity><ei:reportBackDuration><c:duration>PT1M</c:duration></ei:reportBackDuration><ei:specifierPayload><ei:rID>power</ei:rID><ei:readingType>Direct Read</ei:readingType></ei:specifierPayload></ei:reportSpecifier></o:oadrReportRequest>".
Definition create_text (specifier : string) : string := enveloped ("<o:oadrCreateReport ei:schemaVersion=""2.0b""><p:requestID>r2</p:requestID>" ++ request_text "q1" "telemetry" ++ request_text "q2" specifier ++ "<ei:venID>ven1</ei:venID></o:oadrCreateReport>").
Definition event_text (id start : string) : string :=
  "<o:oadrEvent><ei:eiEvent><ei:eventDescriptor><ei:eventID>" ++ id ++ "</ei:eventID><ei:modificationNumber>0</ei:modificationNumber><ei:eiMarketContext><e:marketContext>http://context</e:marketContext></ei:eiMarketContext><ei:createdDateTime>2020-01-01T11:00:00Z</ei:createdDateTime><ei:eventStatus>far</ei:eventStatus></ei:eventDescriptor><ei:eiActivePeriod><c:properties><c:dtstart><c:date-time>" ++ start ++ "</c:date-time></c:dtstart><c:duration><c:duration>PT1H</c:duration></c:duration></c:properties><c:components/></ei:eiActivePeriod><ei:eiEventSignals><ei:eiEventSignal><s:intervals><ei:interval><c:duration><c:duration>PT1H</c:duration></c:duration><c:uid><c:text>0</c:text></c:uid><ei:signalPayload><ei:payloadFloat><ei:value>1.0</ei:value></ei:payloadFloat></ei:signalPayload></ei:interval></s:intervals><ei:signalName>SIMPLE</ei:signalName><ei:signalType>level</ei:signalType><ei:signalID>s1</ei:signalID></ei:eiEventSignal></ei:eiEventSignals><ei:eiTarget><ei:venID>ven1</ei:venID></ei:eiTarget></ei:eiEvent><o:oadrResponseRequired>always</o:oadrResponseRequired></o:oadrEvent>".
Definition events_text (vtn start : string) : string := enveloped ("<o:oadrDistributeEvent ei:schemaVersion=""2.0b""><p:requestID>r3</p:requestID><ei:vtnID>" ++ vtn ++ "</ei:vtnID>" ++ event_text "ev1" "2020-01-01T12:00:00Z" ++ event_text "ev2" start ++ "</o:oadrDistributeEvent>").
Definition cancel_text (ids : list string) : string := enveloped ("<o:oadrCancelReport ei:schemaVersion=""2.0b""><p:requestID>r4</p:requestID>" ++ String.concat "" (map (fun i => "<ei:reportRequestID>" ++ i ++ "</ei:reportRequestID>") ids) ++ "<p:reportToFollow>false</p:reportToFollow></o:oadrCancelReport>").
(** A VEN that opts in, offers a report "telemetry", and sends reports q1, q2. *)
Definition a_ven : ven := mk_ven (fun i => if same i (VStr "telemetry") then Some [mk_offered (VStr "power") None 1000000 100000000] else None) [VStr "q1"; VStr "q2"] (VStr "reg1") (fun _ _ _ => Ok (VStr "optIn")) (fun _ _ => Ok false).
Definition is_valid (s : string) : bool := match validate_xml_schema (fun _ => true) (fun _ => false) s with Ok _ => true | Raise _ => false end.
Definition reacts (s : string) : result reaction := bind (parse_message strict 12 s) (fun '(t, p) => react a_ven t p).
Lemma a_ven_obliging : obliging a_ven.
Proof. split; [intros; now exists (VStr "optIn") | intros; now exists false]. Qed.

Example C98_example_valid : map is_valid [update_text; create_text "telemetry"; create_text "12"; events_text "VTN1" "2020-01-01T13:00:00Z"; events_text "vtn1" "2020-01-01T13:00:00Z"; events_text "VTN1" "2020-01-01T13:00:00"; cancel_text ["q1"]; cancel_text ["q1"; "q2"]] = [true; true; true; true; true; true; true; true].
Proof. vm_compute. reflexivity. Qed.
Example C98_example_update : reacts update_text = Raise AttributeError.
Proof. vm_compute. reflexivity. Qed.
Example C98_example_requests : (reacts (create_text "other"), reacts (create_text "12"), reacts (create_text "true"))
  = (Ok (Creates 200 [Repeated (VStr "q1") [VStr "power"] 10000000; Unoffered (VStr "q2")] [VStr "q1"; VStr "q2"] (VStr "r2")), Raise TypeError, Raise TypeError).
Proof. vm_compute. reflexivity. Qed.
Example C98_example_events : (reacts (events_text "VTN1" "2020-01-01T13:00:00Z"), reacts (events_text "vtn1" "2020-01-01T13:00:00Z"), reacts (events_text "VTN1" "2020-01-01T13:00:00"))
  = (Ok (Responds None (VStr "r3") [mk_reply (VStr "ev1") (VInt 0) (VStr "optIn") 200; mk_reply (VStr "ev2") (VInt 0) (VStr "optIn") 200]),
     Ok (Responds (Some TypeError) (VStr "r3") [mk_reply (VStr "ev1") (VInt 0) (VStr "optOut") 200; mk_reply (VStr "ev2") (VInt 0) (VStr "optOut") 200]),
     Raise AttributeError).
Proof. vm_compute. reflexivity. Qed.
Example C98_example_cancel : (reacts (cancel_text ["q1"]), reacts (cancel_text ["q1"; "q2"])) = (Ok (Cancels (VStr "q1") (VStr "r4") false), Ok (Missing (VList [VStr "q1"; VStr "q2"]))).
Proof. vm_compute. reflexivity. Qed.

Lemma refuting s : (exists x o, read_expanded s = Some x /\ x = Elem (in_oadr "oadrPayload") [] "" [o] /\ xml_name o = in_oadr "oadrSignedObject" /\ alone (fun _ => true) o) -> C98_full ->
  forall t p, parse_message strict 12 s = Ok (t, p) -> dealt a_ven t p.
Proof.
  intros (x & o & R & -> & N & A) H t p P. apply (H strict (fun _ => true) a_ven 12%nat s _ o t p R); [|exact A | exact P | exact a_ven_obliging].
  exists [], "", []. split; [reflexivity|]. split; [reflexivity|]. split; [constructor | exact N].
Qed.
Ltac seen := eexists; eexists; split; [vm_compute; reflexivity|]; split; [reflexivity|]; split; [reflexivity | vm_compute; reflexivity].
Theorem C98_every_answer_is_dealt_with_refuted : ~ C98_full.
Proof.
  intro H. destruct (parse_message strict 12 (create_text "12")) as [[t p]|] eqn:P; [|vm_compute in P; discriminate P].
  destruct (refuting (create_text "12") ltac:(seen) H t p P) as (r & R & _). vm_compute in P. injection P as <- <-. vm_compute in R. discriminate R.
Qed.
Print Assumptions C98_every_answer_is_dealt_with_refuted.

(** The hypotheses of the first theorem are met by the requests and the events
    above. *)
Fixpoint check (f : xml -> bool) (x : xml) : bool := match x with Elem n a t cs => f (Elem n a t cs) && forallb (check f) cs end.
Lemma check_everywhere (f : xml -> bool) (P : xml -> Prop) : (forall x, f x = true -> P x) -> forall x, check f x = true -> everywhere P x.
Proof.
  intros FP. fix IH 1. intros [n a t cs] H. cbn [check] in H. apply andb_true_iff in H as [H1 H2]. cbn [everywhere]. split; [now apply FP|]. clear H1. induction cs as [|c cs IC]; [exact I|]. cbn [forallb] in H2. apply andb_true_iff in H2 as [A B]. split; [now apply IH | now apply IC].
Qed.
Definition wordy (t : string) : bool := negb (String.eqb t "") && negb (String.eqb t "true") && negb (String.eqb t "false") && negb (looks_float t).
Lemma wordy_words text : wordy (flatten_xml text) = true -> in_words text.
Proof.
  unfold wordy. rewrite !andb_true_iff, !negb_true_iff, !String.eqb_neq. intros (((A & B) & C) & D) t F. apply flattening_flatten in F. subst t. repeat (split; [assumption|]). intros L. apply looks_float_spec in L. congruence.
Qed.
Definition named_or (n : string) (f : string -> bool) (x : xml) : bool := negb (String.eqb (xml_name x) n) || f (flatten_xml (text_in x)).
Definition fine (x : xml) : bool :=
  named_or (in_xcal "date-time") (fun t => match parse_datetime t with Ok (Parsed _) => true | _ => false end) x && named_or (in_ei "reportSpecifierID") wordy x
  && named_or (in_ei "vtnID") (fun t => wordy t && negb (ClientEvents.islower t)) x
  && match x with Elem n _ _ cs => negb (String.eqb n (in_oadr "oadrCancelReport")) || Nat.leb (length (filter (fun c => String.eqb (xml_name c) (in_ei "reportRequestID")) cs)) 1 end.
Lemma fine_all x : fine x = true -> in_utc x /\ specifier_in_words x /\ vtn_in_words x /\ for_one x.
Proof.
  unfold fine. rewrite !andb_true_iff. intros (((A & B) & C) & D). unfold named_or in *. rewrite !orb_true_iff, !negb_true_iff, !String.eqb_neq in *. split; [|split; [|split]].
  - intros N. destruct A as [A|A]; [contradiction|]. intros t F. apply flattening_flatten in F. subst t. destruct (timestamp_text_dec (flatten_xml (text_in x))) as [T|T]; [exact T|]. rewrite T in A. discriminate A.
  - intros N. destruct B as [B|B]; [contradiction|]. now apply wordy_words.
  - intros N. destruct C as [C|C]; [contradiction|]. apply andb_true_iff in C as [C1 C2]. split; [now apply wordy_words|]. intros t F L. apply flattening_flatten in F. subst t. apply ClientEventProofs.islower_iff in L. rewrite L in C2. discriminate C2.
  - destruct x as [n a t cs]. intros N. cbn [xml_name] in N. apply orb_true_iff in D as [D|D]; [|now apply Nat.leb_le in D]. rewrite N, String.eqb_refl in D. discriminate D.
Qed.
Definition meets (s : string) : Prop := exists x object t p, read_expanded s = Some x /\ envelope x object /\ alone (fun _ => true) object /\ parse_message strict 12 s = Ok (t, p) /\ t <> "oadrUpdateReport"
  /\ everywhere in_utc object /\ everywhere specifier_in_words object /\ everywhere vtn_in_words object /\ everywhere for_one object.
Lemma meeting s : (exists o, read_expanded s = Some (Elem (in_oadr "oadrPayload") [] "" [o]) /\ xml_name o = in_oadr "oadrSignedObject" /\ alone (fun _ => true) o /\ check fine o = true) ->
  (exists t p, parse_message strict 12 s = Ok (t, p) /\ t <> "oadrUpdateReport") -> meets s.
Proof.
  intros (o & R & N & A & F) (t & p & P & T). exists (Elem (in_oadr "oadrPayload") [] "" [o]), o, t, p. split; [exact R|]. split.
  { exists [], "", []. split; [reflexivity|]. split; [reflexivity|]. split; [constructor | exact N]. }
  split; [exact A|]. split; [exact P|]. split; [exact T|]. repeat split; apply (check_everywhere fine _) with (2 := F); intros x X; now apply fine_all in X.
Qed.
Ltac met := apply meeting; [eexists; split; [vm_compute; reflexivity|]; split; [reflexivity|]; split; vm_compute; reflexivity | eexists; eexists; split; [vm_compute; reflexivity | discriminate]].
Example C98_example_meets_requests : meets (create_text "other").
Proof. met. Qed.
Example C98_example_meets_events : meets (events_text "VTN1" "2020-01-01T13:00:00Z").
Proof. met. Qed.
Example C98_example_meets_cancel : meets (cancel_text ["q1"]).
Proof. met. Qed.
