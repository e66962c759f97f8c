(** C100: a VTN takes every report with data that the schema lets a VEN send. *)
From Coq Require Import ZArith String List Bool Lia.
From Verif.Base Require Import Result Dict PyStr.
From Verif.Model Require Import DateTime Normalize Xml XmlText Schema SchemaTypes VtnService Exchange Handling.
From Verif.Spec Require Import TextSpec ReadableSpec RepliedSpec DeliveredSpec UpdatedSpec.
From Verif.Proofs Require Import UnnamedProofs DeliveredProofs UnmeasuredProofs UpdatedProofs.
Import ListNotations.
Local Open Scope string_scope.

(** Whatever oadrUpdateReport the schema lets a VEN send, once it is parsed, each
    report in it is taken, in their order, and no exception comes of it: by
    on_update_report if there are no callbacks, else by the callbacks that were
    set for it. *)
Definition taken (s : services) (report : xml) (acts : list act) : Prop :=
  (s_callbacks s = [] -> acts = [Calls "on_update_report"]) /\ (s_callbacks s <> [] -> measured report -> delivered_to (s_callbacks s) report acts).
Definition C100_full : Prop := forall num uri depth text x object m p s,
  read_expanded text = Some x -> envelope x object -> alone uri object -> parse_message num depth text = Ok ("oadrUpdateReport", p) -> parts object = [m] ->
  exists actss, Forall2 (taken s) (reports_in m) actss /\ handling s "oadrUpdateReport" (received p) = (concat actss, Returns).

Lemma handled_reports s p l : vget "reports" p = Some (VList l) -> handling s "oadrUpdateReport" (received p) = Handling.ended (report_loop s l).
Proof. intros G. unfold handling. cbn [String.eqb Ascii.eqb Bool.eqb]. unfold update_report. now rewrite pget_received, G. Qed.

(** Without callbacks, with at least one report, exactly: one call each. *)
Theorem C100_without_callbacks : forall num uri depth text x object m p s,
  read_expanded text = Some x -> envelope x object -> alone uri object -> parse_message num depth text = Ok ("oadrUpdateReport", p) -> parts object = [m] ->
  s_callbacks s = [] -> reports_in m <> [] ->
  handling s "oadrUpdateReport" (received p) = (repeat (Calls "on_update_report") (length (reports_in m)), Returns).
Proof.
  intros num uri depth text x object m p s RD EN AL PA PO C NE. destruct (update_read uri num text x object depth p RD EN AL PA) as (m' & PM & R). rewrite PO in PM. injection PM as <-.
  destruct R as [[R _]|(_ & l & G & F)]; [contradiction|]. rewrite (handled_reports s p l G). unfold Handling.ended. rewrite (updates_called s l C (reps_ask num _ _ _ F)).
  cbn [fst snd]. f_equal. f_equal. clear - F. induction F; cbn [length]; congruence.
Qed.
Print Assumptions C100_without_callbacks.

(** With callbacks, if each report has intervals, each interval a start and one
    payload with a number: each callback gets the values that stand in the
    report. *)
Theorem C100_delivered_partial : forall num uri depth text x object m p s,
  read_expanded text = Some x -> envelope x object -> alone uri object -> parse_message num depth text = Ok ("oadrUpdateReport", p) -> parts object = [m] ->
  s_callbacks s <> [] -> reports_in m <> [] -> (forall r, In r (reports_in m) -> measured r) ->
  exists actss, Forall2 (delivered_to (s_callbacks s)) (reports_in m) actss /\ handling s "oadrUpdateReport" (received p) = (concat actss, Returns).
Proof.
  intros num uri depth text x object m p s RD EN AL PA PO C NE ME. destruct (update_measured uri num text x object depth p RD EN AL PA m PO (fun r I => or_introl (ME r I))) as [[R _]|(_ & l & G & F)]; [contradiction|].
  pose proof (reps_hold num _ l ME F) as HL. destruct (reports_given s l C (holds_complete _ _ HL)) as (actss & GV & E). exists actss. split; [exact (given_delivered s _ l actss HL GV)|].
  rewrite (handled_reports s p l G). unfold Handling.ended. now rewrite E.
Qed.
Print Assumptions C100_delivered_partial.

(** Without a report there is an exception, whatever the services. *)
Theorem C100_no_report : forall num uri depth text x object m p s,
  read_expanded text = Some x -> envelope x object -> alone uri object -> parse_message num depth text = Ok ("oadrUpdateReport", p) -> parts object = [m] ->
  reports_in m = [] -> handling s "oadrUpdateReport" (received p) = ([], Raises KeyError).
Proof.
  intros num uri depth text x object m p s RD EN AL PA PO NE. destruct (update_read uri num text x object depth p RD EN AL PA) as (m' & PM & R). rewrite PO in PM. injection PM as <-.
  destruct R as [[_ G]|[R _]]; [|contradiction]. unfold handling. cbn [String.eqb Ascii.eqb Bool.eqb]. unfold update_report. now rewrite pget_received, G.
Qed.
Print Assumptions C100_no_report.

(** With callbacks, a report without intervals ends it: the callbacks get the
    reports before it, nobody gets those after it, and the VEN gets an error. *)
Theorem C100_no_intervals : forall num uri depth text x object m p s before r after,
  read_expanded text = Some x -> envelope x object -> alone uri object -> parse_message num depth text = Ok ("oadrUpdateReport", p) -> parts object = [m] ->
  s_callbacks s <> [] -> reports_in m = (before ++ r :: after)%list -> (forall r', In r' before -> measured r') -> lacking r -> (forall r', In r' after -> measured r' \/ lacking r') ->
  exists actss, Forall2 (delivered_to (s_callbacks s)) before actss /\ handling s "oadrUpdateReport" (received p) = (concat actss, Raises KeyError).
Proof.
  intros num uri depth text x object m p s before r after RD EN AL PA PO C ER MB LR MA.
  assert (ALL : forall r', In r' (reports_in m) -> measured r' \/ lacking r') by (intros r' I; rewrite ER in I; apply in_app_or in I as [I|[<-|I]]; auto).
  destruct (update_measured uri num text x object depth p RD EN AL PA m PO ALL) as [[R _]|(_ & l & G & F)]; [rewrite ER in R; destruct before; discriminate R|].
  rewrite ER in F. apply Forall2_app_inv_l in F as (l1 & l2 & F1 & F2 & ->). inversion F2 as [|? v ? l3 RV F3 E1 E2]; subst.
  destruct (rep_lacks num r v LR RV) as (d & id & -> & GI & GN). pose proof (reps_hold num _ l1 MB F1) as HL. destruct (reports_given s l1 C (holds_complete _ _ HL)) as (actss & GV & E). exists actss. split; [exact (given_delivered s _ l1 actss HL GV)|].
  rewrite (handled_reports s p _ G). unfold Handling.ended. rewrite (loop_app s l1 _ _ E), (loop_stops s d id l3 C GI GN). cbn [fst snd]. now rewrite app_nil_r.
Qed.
Print Assumptions C100_no_intervals.

(** Of a message as it was read: an interval without a start or without a value
    ends it as well, if there is a callback for it.  The callbacks get the
    reports before it; of this report, some may get the values of other r_ids;
    nobody gets the values of this one or the reports after it. *)
Theorem C100_unmeasured : forall s p before d id intervals ks i k after,
  pget "reports" p = Some (Other (VList (before ++ VDict d :: after)%list)) -> Forall complete before ->
  vget "report_request_id" d = Some id -> vget "intervals" d = Some (VList intervals) -> Forall2 called intervals ks ->
  In i intervals -> called i k -> In (id, k) (s_callbacks s) -> unmeasured i ->
  exists actss acts, Forall2 (given s) before actss /\ handling s "oadrUpdateReport" p = ((concat actss ++ acts)%list, Raises KeyError)
    /\ forall a, In a acts -> exists k' vs, a = Delivers id k' vs /\ k' <> k.
Proof.
  intros s p before d id intervals ks i k after G CO GI GN F I C CB U. assert (NE : s_callbacks s <> []) by (intros E; rewrite E in CB; destruct CB).
  destruct (reports_given s before NE CO) as (actss & GV & E). destruct (report_lacks s d id intervals ks i k GI GN F I C CB U) as (acts & E' & W). exists actss, acts. split; [exact GV|]. split; [|exact W].
  unfold handling. cbn [String.eqb Ascii.eqb Bool.eqb]. unfold update_report. rewrite G, (loop_app s before _ _ E), (loop_lacks s d after acts KeyError E'). reflexivity.
Qed.
Print Assumptions C100_unmeasured.

(** Of a message as it was read, with callbacks: an interval with several payloads
    ends it, for whatever r_ids there are callbacks; nobody gets anything of this
    report. *)
Theorem C100_several_payloads : forall s p before d id pre ks i ps post after,
  pget "reports" p = Some (Other (VList (before ++ VDict d :: after)%list)) -> Forall complete before -> s_callbacks s <> [] ->
  vget "report_request_id" d = Some id -> vget "intervals" d = Some (VList (pre ++ VDict i :: post)%list) -> Forall2 called pre ks -> vget "report_payload" i = Some (VList ps) ->
  exists actss, Forall2 (given s) before actss /\ handling s "oadrUpdateReport" p = (concat actss, Raises AttributeError).
Proof.
  intros s p before d id pre ks i ps post after G CO C GI GN F V. destruct (reports_given s before C CO) as (actss & GV & E). exists actss. split; [exact GV|].
  unfold handling. cbn [String.eqb Ascii.eqb Bool.eqb]. unfold update_report. rewrite G, (loop_app s before _ _ E), (loop_lacks s d after [] AttributeError (report_several s d id pre ks i ps post C GI GN F V)), app_nil_r. reflexivity.
Qed.
Print Assumptions C100_several_payloads.

(** ** Cases *)
Definition strict : numbers := mk_numbers (fun t => matches float_pattern t) (fun _ => Raise ValueError) (fun _ => "").
Definition update_text (reports : string) : string :=
  "<o:oadrPayload xmlns:o=""http://openadr.org/oadr-2.0b/2012/07"" xmlns:ei=""http://docs.oasis-open.org/ns/energyinterop/201110"" xmlns:p=""http://docs.oasis-open.org/ns/energyinterop/201110/payloads"" xmlns:c=""urn:ietf:params:xml:ns:icalendar-2.0"" xmlns:s=""urn:ietf:params:xml:ns:icalendar-2.0:stream""><o:oadrSignedObject><o:oadrUpdateReport ei:schemaVersion=""2.0b""><p:requestID>r7</p:requestID>"
  ++ reports ++ "<ei:venID>ven1</ei:venID></o:oadrUpdateReport></o:oadrSignedObject></o:oadrPayload>".
Definition report_text (id intervals : string) : string := "<o:oadrReport>" ++ intervals ++ "<ei:reportRequestID>" ++ id ++ "</ei:reportRequestID><ei:reportSpecifierID>spec</ei:reportSpecifierID><ei:createdDateTime>2020-01-01T12:00:10Z</ei:createdDateTime></o:oadrReport>".
Definition start_text : string := "<c:dtstart><c:date-time>2020-01-01T12:00:00Z</c:date-time></c:dtstart>".
Definition value_text (r_id value : string) : string := "<o:oadrReportPayload><ei:rID>" ++ r_id ++ "</ei:rID><ei:payloadFloat><ei:value>" ++ value ++ "</ei:value></ei:payloadFloat></o:oadrReportPayload>".
Definition interval_text (inside : string) : string := "<ei:interval>" ++ inside ++ "</ei:interval>".
Definition intervals_text (inside : string) : string := "<s:intervals>" ++ inside ++ "</s:intervals>".
Definition full_report (id value : string) : string := report_text id (intervals_text (interval_text (start_text ++ value_text "power" value) ++ interval_text (start_text ++ value_text "energy" "5") ++ interval_text (start_text ++ value_text "power" "7"))).
Definition two : string := update_text (full_report "q1" "99.5" ++ full_report "q2" "12").
Definition none : string := update_text "".
Definition lacking_one : string := update_text (full_report "q1" "99.5" ++ report_text "q2" "" ++ full_report "q1" "4").
Definition no_start : string := update_text (report_text "q1" (intervals_text (interval_text (value_text "power" "99.5")))).
Definition two_payloads : string := update_text (report_text "q1" (intervals_text (interval_text (start_text ++ value_text "power" "99.5" ++ value_text "energy" "5")))).
Definition is_valid (s : string) : bool := match validate_xml_schema (fun _ => true) (fun _ => false) s with Ok _ => true | Raise _ => false end.
Definition plain : services := mk_services false [] false false false.
Definition power_q1 : services := mk_services false [(VStr "q1", VStr "power")] false false false.
Definition done (s : services) (text : string) : list act * outcome := match parse_message strict 12 text with Ok (t, p) => handling s t (received p) | Raise e => ([], Raises e) end.
Definition noon : val := Eval vm_compute in match parse_datetime "2020-01-01T12:00:00Z" with Ok (Parsed t) => VTime t | _ => VNone end.

Example C100_example_valid : map is_valid [two; none; lacking_one; no_start; two_payloads] = [true; true; true; true; true].
Proof. vm_compute. reflexivity. Qed.
Example C100_example_plain : map (done plain) [two; none; lacking_one] = [([Calls "on_update_report"; Calls "on_update_report"], Returns); ([], Raises KeyError); ([Calls "on_update_report"; Calls "on_update_report"; Calls "on_update_report"], Returns)].
Proof. vm_compute. reflexivity. Qed.
Example C100_example_callbacks : map (done power_q1) [two; none; lacking_one] =
  [([Delivers (VStr "q1") (VStr "power") [(noon, VFloat "99.5"); (noon, VFloat "7")]], Returns); ([], Raises KeyError); ([Delivers (VStr "q1") (VStr "power") [(noon, VFloat "99.5"); (noon, VFloat "7")]], Raises KeyError)].
Proof. vm_compute. reflexivity. Qed.
(** Without a start, or with two payloads in an interval, there is an exception
    with callbacks; without callbacks there is none. *)
Example C100_example_unmeasured : (map (done power_q1) [no_start; two_payloads], map (done plain) [no_start; two_payloads])
  = ([([], Raises KeyError); ([], Raises AttributeError)], [([Calls "on_update_report"], Returns); ([Calls "on_update_report"], Returns)]).
Proof. vm_compute. reflexivity. Qed.

(** The hypotheses of C100_unmeasured are met by a message of the schema: the first
    report is complete, the second has a value of energy, and one of power without a
    start. *)
Definition one_unstarted : string := update_text (full_report "q1" "99.5"
  ++ report_text "q1" (intervals_text (interval_text (start_text ++ value_text "energy" "5") ++ interval_text (value_text "power" "7"))) ++ full_report "q1" "4").
Definition both_q1 : services := mk_services false [(VStr "q1", VStr "power"); (VStr "q1", VStr "energy")] false false false.
Example C100_example_unstarted : is_valid one_unstarted = true /\ exists q before d after intervals ks i, parse_message strict 12 one_unstarted = Ok ("oadrUpdateReport", q)
  /\ pget "reports" (received q) = Some (Other (VList (before ++ VDict d :: after)%list)) /\ before <> [] /\ after <> [] /\ Forall complete before
  /\ vget "report_request_id" d = Some (VStr "q1") /\ vget "intervals" d = Some (VList intervals) /\ Forall2 called intervals ks
  /\ In i intervals /\ called i (VStr "power") /\ In (VStr "q1", VStr "power") (s_callbacks both_q1) /\ unmeasured i
  /\ handling both_q1 "oadrUpdateReport" (received q) = ([Delivers (VStr "q1") (VStr "power") [(noon, VFloat "99.5"); (noon, VFloat "7")]; Delivers (VStr "q1") (VStr "energy") [(noon, VFloat "5")];
       Delivers (VStr "q1") (VStr "energy") [(noon, VFloat "5")]], Raises KeyError).
Proof.
  split; [vm_compute; reflexivity|]. let r := eval vm_compute in (parse_message strict 12 one_unstarted) in match r with Ok (_, ?q) =>
    let l := eval vm_compute in (vget "reports" q) in match l with Some (VList [?a; VDict ?d; ?b]) =>
      let j := eval vm_compute in (vget "intervals" d) in match j with Some (VList [?i1; ?i2]) => exists q, [a], d, [b], [i1; i2], [VStr "energy"; VStr "power"], i2 end end end.
  split; [vm_compute; reflexivity|]. split; [vm_compute; reflexivity|]. split; [discriminate|]. split; [discriminate|]. split.
  { constructor; [|constructor]. eexists _, _, _, [(VStr "power", (noon, VFloat "99.5")); (VStr "energy", (noon, VFloat "5")); (VStr "power", (noon, VFloat "7"))]. split; [reflexivity|]. split; [vm_compute; reflexivity|]. split; [vm_compute; reflexivity|].
    repeat constructor; (eexists _, _; split; [reflexivity|]; repeat (split; [vm_compute; reflexivity|]); split; discriminate). }
  split; [vm_compute; reflexivity|]. split; [vm_compute; reflexivity|]. split.
  { repeat constructor; (eexists _, _; split; [reflexivity|]; repeat (split; [vm_compute; reflexivity|]); split; discriminate). }
  split; [now right; left|]. split; [eexists _, _; split; [reflexivity|]; repeat (split; [vm_compute; reflexivity|]); split; discriminate|]. split; [now left|].
  split; [eexists _, _; split; [reflexivity|]; split; [vm_compute; reflexivity | left; vm_compute; reflexivity]|]. vm_compute. reflexivity.
Qed.

(** Those of C100_several_payloads: the second interval of the second report has two. *)
Definition one_double : string := update_text (full_report "q1" "99.5"
  ++ report_text "q1" (intervals_text (interval_text (start_text ++ value_text "energy" "5") ++ interval_text (start_text ++ value_text "voltage" "7" ++ value_text "current" "8"))) ++ full_report "q1" "4").
Example C100_example_double : is_valid one_double = true /\ exists q before d after pre ks i ps post, parse_message strict 12 one_double = Ok ("oadrUpdateReport", q)
  /\ pget "reports" (received q) = Some (Other (VList (before ++ VDict d :: after)%list)) /\ before <> [] /\ after <> [] /\ pre <> [] /\ Forall complete before /\ s_callbacks both_q1 <> []
  /\ vget "report_request_id" d = Some (VStr "q1") /\ vget "intervals" d = Some (VList (pre ++ VDict i :: post)%list) /\ Forall2 called pre ks /\ vget "report_payload" i = Some (VList ps)
  /\ handling both_q1 "oadrUpdateReport" (received q) = ([Delivers (VStr "q1") (VStr "power") [(noon, VFloat "99.5"); (noon, VFloat "7")]; Delivers (VStr "q1") (VStr "energy") [(noon, VFloat "5")]], Raises AttributeError).
Proof.
  split; [vm_compute; reflexivity|]. let r := eval vm_compute in (parse_message strict 12 one_double) in match r with Ok (_, ?q) =>
    let l := eval vm_compute in (vget "reports" q) in match l with Some (VList [?a; VDict ?d; ?b]) =>
      let j := eval vm_compute in (vget "intervals" d) in match j with Some (VList [?i1; VDict ?i2]) =>
        let ps := eval vm_compute in (vget "report_payload" i2) in match ps with Some (VList ?ps) => exists q, [a], d, [b], [i1], [VStr "energy"], i2, ps, [] end end end end.
  split; [vm_compute; reflexivity|]. split; [vm_compute; reflexivity|]. do 3 (split; [discriminate|]). split.
  { constructor; [|constructor]. eexists _, _, _, [(VStr "power", (noon, VFloat "99.5")); (VStr "energy", (noon, VFloat "5")); (VStr "power", (noon, VFloat "7"))]. split; [reflexivity|]. split; [vm_compute; reflexivity|]. split; [vm_compute; reflexivity|].
    repeat constructor; (eexists _, _; split; [reflexivity|]; repeat (split; [vm_compute; reflexivity|]); split; discriminate). }
  split; [discriminate|]. split; [vm_compute; reflexivity|]. split; [vm_compute; reflexivity|]. split.
  { repeat constructor; (eexists _, _; split; [reflexivity|]; repeat (split; [vm_compute; reflexivity|]); split; discriminate). }
  split; [vm_compute; reflexivity|]. vm_compute. reflexivity.
Qed.

(** The hypotheses of the theorems are met by these messages. *)
Definition meets (s : string) (H : xml -> Prop) : Prop := exists x object m p, read_expanded s = Some x /\ envelope x object /\ alone (fun _ => true) object /\ parse_message strict 12 s = Ok ("oadrUpdateReport", p) /\ parts object = [m] /\ H m.
Ltac met := eexists; eexists; eexists; eexists; split; [vm_compute; reflexivity|]; split; [exists [], "", []; split; [reflexivity|]; split; [reflexivity|]; split; [constructor | reflexivity]|]; split; [vm_compute; reflexivity|]; split; [vm_compute; reflexivity|]; split; [reflexivity|].
Definition measuring (i : xml) : bool :=
  match named (in_xcal "dtstart") i, named (in_oadr "oadrReportPayload") i with _ :: _, [p] => match named (in_ei "payloadFloat") p with [] => false | _ => true end | _, _ => false end.
Lemma measuring_spec i : measuring i = true -> measurement i.
Proof.
  unfold measuring, measurement. destruct (named (in_xcal "dtstart") i); [discriminate|]. destruct (named (in_oadr "oadrReportPayload") i) as [|p [|]]; try discriminate. destruct (named (in_ei "payloadFloat") p) eqn:E; [discriminate|]. intros _. split; [discriminate|]. exists p. split; [reflexivity|]. rewrite E. discriminate.
Qed.
Definition measuring_all (r : xml) : bool := match named (in_strm "intervals") r with [] => false | _ => forallb measuring (intervals_in r) end.
Lemma measuring_all_spec r : measuring_all r = true -> measured r.
Proof.
  unfold measuring_all, measured. destruct (named (in_strm "intervals") r) eqn:E; [discriminate|]. intros H. split; [discriminate|]. rewrite forallb_forall in H. intros i I. apply measuring_spec. now apply H.
Qed.
Example C100_example_meets_two : meets two (fun m => reports_in m <> [] /\ forall r, In r (reports_in m) -> measured r).
Proof. met. split; [vm_compute; discriminate|]. intros r I. apply measuring_all_spec. revert r I. apply forallb_forall. vm_compute. reflexivity. Qed.
Example C100_example_meets_none : meets none (fun m => reports_in m = []).
Proof. met. reflexivity. Qed.
Example C100_example_meets_lacking : meets lacking_one (fun m => exists a r b, reports_in m = (a ++ r :: b)%list /\ (forall r', In r' a -> measured r') /\ lacking r /\ (forall r', In r' b -> measured r' \/ lacking r') /\ a <> [] /\ b <> []).
Proof.
  met. match goal with |- exists a r b, ?l = _ /\ _ => let l' := eval vm_compute in l in match l' with [?a; ?r; ?b] => exists [a], r, [b] end end. split; [vm_compute; reflexivity|].
  split; [intros r' [<-|[]]; apply measuring_all_spec; vm_compute; reflexivity|]. split; [reflexivity|]. split; [intros r' [<-|[]]; left; apply measuring_all_spec; vm_compute; reflexivity|]. split; discriminate.
Qed.

Theorem C100_every_report_is_taken_refuted : ~ C100_full.
Proof.
  intro H. destruct C100_example_meets_none as (x & object & m & p & RD & EN & AL & PA & PO & NO).
  destruct (H strict (fun _ => true) 12%nat _ x object m p plain RD EN AL PA PO) as (actss & _ & E).
  rewrite (C100_no_report strict (fun _ => true) 12%nat _ x object m p plain RD EN AL PA PO NO) in E. discriminate E.
Qed.
Print Assumptions C100_every_report_is_taken_refuted.
(** Nor does it hold for messages with reports. *)
Theorem C100_reports_refuted : ~ (forall num uri depth text x object m p s,
  read_expanded text = Some x -> envelope x object -> alone uri object -> parse_message num depth text = Ok ("oadrUpdateReport", p) -> parts object = [m] -> reports_in m <> [] ->
  exists acts, handling s "oadrUpdateReport" (received p) = (acts, Returns)).
Proof.
  intro H. destruct C100_example_meets_lacking as (x & object & m & p & RD & EN & AL & PA & PO & a & r & b & ER & MA & LR & MB & _).
  assert (NE : reports_in m <> []) by (rewrite ER; destruct a; discriminate). assert (C : s_callbacks power_q1 <> []) by discriminate.
  destruct (H strict (fun _ => true) 12%nat _ x object m p power_q1 RD EN AL PA PO NE) as (acts & E).
  destruct (C100_no_intervals strict (fun _ => true) 12%nat _ x object m p power_q1 a r b RD EN AL PA PO C ER MA LR MB) as (actss & _ & E'). rewrite E in E'. discriminate E'.
Qed.
Print Assumptions C100_reports_refuted.
