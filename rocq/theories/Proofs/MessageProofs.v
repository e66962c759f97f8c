(** What arrives of an oadrCreatedEvent, an oadrUpdateReport and an oadrDistributeEvent. *)
From Coq Require Import ZArith String Ascii List Bool Lia Arith.
From Verif.Base Require Import Result Dict PyStr ListExtra.
From Verif.Model Require Import Duration DateTime Text Normalize Xml.
From Verif.Spec Require Import Calendar Instants TextSpec MessageSpec.
From Verif.Proofs Require Import TextProofs NormalizeProofs.
Import ListNotations.
Local Open Scope string_scope.

Section Messages.
Context (num : numbers).
Local Notation nz := (normalize num).
Local Notation arrives := (arrives num).
Local Notation good_step := (good_step num).

(** Fixed members *)
Lemma fixed_text n k s : text_key k k = true -> plain s -> adds num n (k, VStr s) [(k, VStr s)] /\ fkey k = k.
Proof. intros K P. destruct (step_text num n k k s K P) as [_ F]. cbn [snd] in F. now inversion F. Qed.
Lemma fixed_int n k z : text_key k k = true -> adds num n (k, VInt z) [(k, VInt z)] /\ fkey k = k.
Proof. intros K. destruct (step_int num n k k z K) as [_ F]. cbn [snd] in F. now inversion F. Qed.
Lemma fixed_scalar n k v : keyed k k = true -> leaf_key k = true -> duration_key k = false -> scalar_val v = true ->
  match v with VStr _ => false | _ => true end = true -> adds num n (k, v) [(k, v)] /\ fkey k = k.
Proof.
  intros K L D S T. apply fixed_intro; [assumption| |].
  - rewrite value_scalar by assumption. now apply interpret_done.
  - apply unnest_leaf; [assumption|]. now destruct v.
Qed.

(** An optional child. *)
Definition ostep {A} (f : A -> xml) (g : A -> vdict) (o : option A) : list (xml * vdict) := match o with Some a => [(f a, g a)] | None => [] end.
Lemma map_ostep {A} (f : A -> xml) g o : map fst (ostep f g o) = opt f o.
Proof. now destruct o. Qed.
Lemma good_ostep {A} n (P : A -> Prop) (f : A -> xml) g o : good P o -> (forall a, P a -> good_step n (f a, g a)) -> Forall (good_step n) (ostep f g o).
Proof. destruct o; cbn; intros G H; repeat constructor; now apply H. Qed.
Lemma good_ostep' {A} n (f : A -> xml) g o : (forall a, good_step n (f a, g a)) -> Forall (good_step n) (ostep f g o).
Proof. destruct o; cbn; intros H; repeat constructor; apply H. Qed.

(** The attribute of the message element is skipped. *)
Lemma message_items name cs : items (Elem name message_attrs "" cs) = fold_left (fun d c => push d (xml_name c) (to_val c)) cs [("@schemaVersion", VStr "2.0b")].
Proof. reflexivity. Qed.
Lemma skip_attribute n its : nz (S n) (("@schemaVersion", VStr "2.0b") :: its) = nz (S n) its.
Proof. reflexivity. Qed.

(** ** oadrCreatedEvent *)
Definition response_steps (r : event_response) : list (xml * vdict) :=
  ([(leaf "responseCode" (str_of_Z (er_code r)), [("response_code", VInt (er_code r))])]
   ++ ostep (leaf "responseDescription") (fun s => [("response_description", VStr s)]) (er_description r)
   ++ [(leaf "requestID" (er_request_id r), [("request_id", VStr (er_request_id r))]);
       (node "qualifiedEventID" [leaf "eventID" (er_event_id r); leaf "modificationNumber" (str_of_Z (er_modification_number r))],
        [("event_id", VStr (er_event_id r)); ("modification_number", VInt (er_modification_number r))]);
       (leaf "optType" (er_opt_type r), [("opt_type", VStr (er_opt_type r))])])%list.

Lemma step_qualified n id m : plain id ->
  good_step (S n) (node "qualifiedEventID" [leaf "eventID" id; leaf "modificationNumber" (str_of_Z m)], [("event_id", VStr id); ("modification_number", VInt m)]).
Proof.
  intros P.
  assert (A : arrives (S n) (node "qualifiedEventID" [leaf "eventID" id; leaf "modificationNumber" (str_of_Z m)]) [("event_id", VStr id); ("modification_number", VInt m)]).
  { apply (arrives_node num n "qualifiedEventID" [(leaf "eventID" id, [("event_id", VStr id)]); (leaf "modificationNumber" (str_of_Z m), [("modification_number", VInt m)])]).
    - discriminate.
    - repeat constructor; [now apply step_text | | now apply step_int |]; try (now apply fixed_text); now apply fixed_int.
    - reflexivity. }
  split; cbn [fst snd].
  - intros d F. rewrite (entry_value num (S n) d _ _ (VDict [("event_id", VStr id); ("modification_number", VInt m)])); [|reflexivity|now apply value_arrives].
    change (fkey (xml_name (node "qualifiedEventID" [leaf "eventID" id; leaf "modificationNumber" (str_of_Z m)]))) with "qualified_event_id" in *.
    cbn [map fst] in F. cbn [xml_name node].
    change (fkey "qualifiedEventID") with "qualified_event_id" in *.
    assert (F1 : vget "qualified_event_id" d = None) by (apply F; simpl; tauto).
    assert (F2 : vget "event_id" d = None) by (apply F; simpl; tauto).
    assert (F3 : vget "modification_number" d = None) by (apply F; simpl; tauto).
    unfold finish. change (("qualified_event_id" =? "target")%string) with false. cbn iota. rewrite vset_absent by assumption.
    unfold tidy. cbn [existsb String.eqb Ascii.eqb Bool.eqb andb orb]. cbn -[vset vdel app].
    rewrite vdel_last by assumption. rewrite (vset_absent "event_id") by assumption. rewrite vset_absent.
    + now rewrite <- app_assoc.
    + rewrite vget_app, F3. reflexivity.
  - repeat constructor; try (now apply fixed_text); now apply fixed_int.
Qed.

Lemma response_arrives n r : good_response r -> arrives (S (S n)) (event_response_xml r) (steps_payload (response_steps r)).
Proof.
  intros (A & B & C & D).
  assert (E : event_response_xml r = node "eventResponse" (map fst (response_steps r))).
  { unfold event_response_xml, response_steps. rewrite !map_app, map_ostep. reflexivity. }
  rewrite E. apply arrives_node.
  - discriminate.
  - unfold response_steps. apply Forall_app. split; [|apply Forall_app; split].
    + constructor; [now apply step_int | constructor].
    + eapply good_ostep; [exact A|]. intros s P. now apply step_text.
    + constructor; [now apply step_text|]. constructor; [now apply step_qualified|]. constructor; [now apply step_text|constructor].
  - unfold response_steps. destruct (er_description r); reflexivity.
Qed.

Lemma response_compact r : compact (steps_payload (response_steps r)) = true.
Proof. unfold response_steps. destruct (er_description r); reflexivity. Qed.

Definition created_steps (code : Z) (description : string) (rs : list event_response) (ven_id : string) : list (xml * vdict) :=
  [(node "eiResponse" [leaf "responseCode" (str_of_Z code); leaf "responseDescription" description; leaf "requestID" ""],
    [("response", VDict [("response_code", VInt code); ("response_description", VStr description); ("request_id", VNone)])]);
   (node "eventResponses" (map event_response_xml rs),
    [("event_responses", match rs with [] => VNone | _ => VList (map VDict (map (fun r => steps_payload (response_steps r)) rs)) end)]);
   (leaf "venID" ven_id, [("ven_id", VStr ven_id)])].

Lemma wrapper_responses n rs : rs <> [] -> Forall good_response rs ->
  good_step (S (S (S n))) (node "eventResponses" (map event_response_xml rs), [("event_responses", VList (map VDict (map (fun r => steps_payload (response_steps r)) rs)))]).
Proof.
  intros N G. apply (step_wrapper num (S (S n)) "eventResponses" "eventResponse" "event_response"); try reflexivity.
  - apply Forall_map. apply Forall_forall. reflexivity.
  - destruct rs; [contradiction|discriminate].
  - clear N. induction G; constructor; [now apply response_arrives | assumption].
  - apply Forall_map, Forall_forall. intros r _. apply response_compact.
Qed.

Lemma created_event_parsed n code description rs ven_id :
  plain description -> plain ven_id -> Forall good_response rs ->
  parse_payload num (S (S (S (S (S n))))) (created_event_xml code description rs ven_id) = Ok (steps_payload (created_steps code description rs ven_id)).
Proof.
  intros PD PV G. unfold parse_payload, created_event_xml. rewrite message_items. cbn [fold_left]. rewrite push_absent by reflexivity.
  cbn [app]. rewrite skip_attribute. set (x := node "eiCreatedEvent" _).
  assert (E : x = node "eiCreatedEvent" (map fst (created_steps code description rs ven_id))) by reflexivity.
  assert (A : arrives (S (S (S (S n)))) x (steps_payload (created_steps code description rs ven_id))).
  { rewrite E. apply arrives_node; [discriminate| |reflexivity].
    constructor; [|constructor; [|constructor; [now apply step_text | constructor]]].
    - apply step_dict; try reflexivity.
      apply (arrives_node num (S (S n)) "eiResponse" [(leaf "responseCode" (str_of_Z code), [("response_code", VInt code)]);
        (leaf "responseDescription" description, [("response_description", VStr description)]); (leaf "requestID" "", [("request_id", VNone)])]);
      [discriminate | | reflexivity].
      constructor; [now apply step_int|]. constructor; [now apply step_text|]. constructor; [now apply step_none | constructor].
    - destruct rs as [|r rs]; [now apply (step_none num _ "eventResponses")|]. now apply wrapper_responses. }
  change (xml_name x) with "eiCreatedEvent". clearbody x. clear E.
  change (nz (S (S (S (S (S n))))) [("eiCreatedEvent", to_val x)]) with (foldM (entry num (nz (S (S (S (S n)))))) [("eiCreatedEvent", to_val x)] []).
  cbn [foldM]. rewrite (entry_value num _ [] "eiCreatedEvent" _ (VDict (steps_payload (created_steps code description rs ven_id)))); [|reflexivity|now apply value_arrives].
  reflexivity.
Qed.

(** ** oadrUpdateReport *)
Definition read_number (x : number) : val := match x with NInt z => VInt z | NFloat t => VFloat t end.

(** dtstart with a date-time, duration with a duration *)
Lemma step_dtstart n t : good_time t -> good_step (S n) (node "dtstart" [leaf "date-time" (show_time t)], [("dtstart", read_time t)]).
Proof.
  intros G. destruct (read_time_val t G) as [u R].
  assert (A : arrives (S n) (node "dtstart" [leaf "date-time" (show_time t)]) [("date_time", read_time t)]).
  { apply (arrives_node num n "dtstart" [(leaf "date-time" (show_time t), [("date_time", read_time t)])]); [discriminate | | reflexivity].
    constructor; [now apply step_time | constructor]. }
  eapply step_unnest; try reflexivity; [exact A| | |]; rewrite R; reflexivity.
Qed.
Lemma fixed_duration_key n k td : keyed k k = true -> leaf_key k = true -> adds num n (k, VDur td) [(k, VDur td)] /\ fkey k = k.
Proof.
  intros K L. apply fixed_intro; [assumption| |now apply unnest_leaf].
  cbn [value_of]. unfold interpret. destruct (existsb _ _); reflexivity.
Qed.
Lemma arrives_duration n name td : good_duration td -> arrives (S n) (node name [leaf "duration" (timedeltaformat td)]) [("duration", VDur td)].
Proof.
  intros G. apply (arrives_node num n name [(leaf "duration" (timedeltaformat td), [("duration", VDur td)])]); [discriminate | | reflexivity].
  constructor; [|constructor]. apply step_leaf; try reflexivity; [apply timedeltaformat_one_line | now apply interpret_duration].
Qed.
(** duration, x-eiNotification, ... *)
Lemma step_duration n name k td : good_duration td -> keyed name k = true -> leaf_key k = true ->
  good_step (S n) (node name [leaf "duration" (timedeltaformat td)], [(k, VDur td)]).
Proof.
  intros G K L. apply (step_intro num (S n) _ k (VDict [("duration", VDur td)]) (VDur td)).
  - assumption.
  - now apply value_arrives, arrives_duration.
  - reflexivity.
  - cbn [value_of]. unfold interpret. destruct (existsb _ _); reflexivity.
  - now apply unnest_leaf.
Qed.

(** payloadFloat *)
Lemma float_arrives n x : good_number num x -> exists v,
  arrives (S n) (node "payloadFloat" [leaf "value" (show_number x)]) [("value", v)] /\ to_float num v = Ok (VFloat (show_number x)) /\ v <> VNone.
Proof.
  intros G. destruct (interpret_number num "value" x eq_refl eq_refl G) as (v & I & F & N & ND & NL). exists v. split; [|now split].
  apply (arrives_node num n "payloadFloat" [(leaf "value" (show_number x), [("value", v)])]); [discriminate | | reflexivity].
  constructor; [|constructor]. apply step_leaf; try reflexivity.
  - now apply (show_number_one_line num).
  - destruct v; try reflexivity; [now destruct (NL l) | now destruct (ND d)].
  - exact I.
  - destruct x as [z|t].
    + cbn [show_number] in I. rewrite interpret_int in I by reflexivity. injection I as <-. reflexivity.
    + cbn [show_number] in I. rewrite interpret_text in I by reflexivity.
      destruct (_ || _); [injection I as <-; reflexivity|]. destruct (looks_int t) eqn:LI; [injection I as <-; reflexivity|].
      destruct (looks_float t) eqn:LF; [destruct (float_ok num t); [injection I as <-; reflexivity|discriminate]|].
      injection I as <-. destruct G as (_ & A & B & C & _). apply interpret_plain; try reflexivity; try assumption.
      intros L. apply looks_float_spec in L. congruence.
Qed.
(** signalPayload, currentValue *)
Lemma step_payload n name k x : good_number num x -> keyed name k = true -> existsb (String.eqb k) ["signal_payload"; "current_value"] = true ->
  good_step (S (S n)) (payload_xml name x, [(k, VFloat (show_number x))]).
Proof.
  intros G K P. destruct (float_arrives n x G) as (v & A & F & N).
  assert (A' : arrives (S (S n)) (payload_xml name x) [("payload_float", VDict [("value", v)])]).
  { unfold payload_xml. apply (arrives_node num (S n) name [(node "payloadFloat" [leaf "value" (show_number x)], [("payload_float", VDict [("value", v)])])]); [discriminate | | reflexivity].
    constructor; [|constructor]. apply (step_intro num (S n) _ "payload_float" (VDict [("value", v)]) (VDict [("value", v)])); try reflexivity.
    - now apply value_arrives.
    - apply value_stable, A. }
  apply (step_intro num (S (S n)) _ k (VDict [("payload_float", VDict [("value", v)])]) (VFloat (show_number x))).
  - exact K.
  - now apply value_arrives.
  - cbn [existsb] in P. rewrite orb_false_r in P. apply orb_true_iff in P as [P|P]; apply String.eqb_eq in P; subst k;
      unfold unnest; cbn -[to_float]; destruct v; try contradiction; now rewrite F.
  - rewrite value_scalar by reflexivity. apply interpret_done; [reflexivity|].
    cbn [existsb] in P. rewrite orb_false_r in P. apply orb_true_iff in P as [P|P]; apply String.eqb_eq in P; subst k; reflexivity.
  - now apply unnest_payload_leaf.
Qed.

(** The members of a report payload, in the order of a dict after the conversion. *)
Definition report_payload_members (p : report_payload) : vdict :=
  ([("r_id", VStr (rp_r_id p))]
   ++ match rp_confidence p with Some x => [("confidence", read_number x)] | None => [] end
   ++ match rp_accuracy p with Some x => [("accuracy", read_number x)] | None => [] end
   ++ match rp_data_quality p with Some s => [("data_quality", VStr s)] | None => [] end
   ++ [("value", VFloat (show_number (rp_value p)))])%list.
Definition report_payload_xml (p : report_payload) : xml :=
  node "oadrReportPayload"
    ([leaf "rID" (rp_r_id p)]
     ++ opt (fun n => leaf "confidence" (show_number n)) (rp_confidence p)
     ++ opt (fun n => leaf "accuracy" (show_number n)) (rp_accuracy p)
     ++ [node "payloadFloat" [leaf "value" (show_number (rp_value p))]]
     ++ opt (leaf "oadrDataQuality") (rp_data_quality p))%list.
Definition good_payload (p : report_payload) : Prop :=
  plain (rp_r_id p) /\ good_number num (rp_value p) /\ good (plain_number num) (rp_confidence p) /\ good (plain_number num) (rp_accuracy p) /\ good plain (rp_data_quality p).
Lemma step_report_payload n p : good_payload p -> good_step (S (S n)) (report_payload_xml p, [("report_payload", VDict (report_payload_members p))]).
Proof.
  intros (R & V & C & Ac & Q). destruct (float_arrives n (rp_value p) V) as (v & A & F & N).
  set (steps := ([(leaf "rID" (rp_r_id p), [("r_id", VStr (rp_r_id p))])]
     ++ ostep (fun n => leaf "confidence" (show_number n)) (fun x => [("confidence", read_number x)]) (rp_confidence p)
     ++ ostep (fun n => leaf "accuracy" (show_number n)) (fun x => [("accuracy", read_number x)]) (rp_accuracy p)
     ++ [(node "payloadFloat" [leaf "value" (show_number (rp_value p))], [("payload_float", VDict [("value", v)])])]
     ++ ostep (leaf "oadrDataQuality") (fun s => [("data_quality", VStr s)]) (rp_data_quality p))%list).
  assert (A' : arrives (S (S n)) (report_payload_xml p) (steps_payload steps)).
  { assert (E : report_payload_xml p = node "oadrReportPayload" (map fst steps)) by (unfold steps; rewrite !map_app, !map_ostep; reflexivity).
    rewrite E. apply arrives_node; [discriminate| |].
    - unfold steps. apply Forall_app; split; [constructor; [now apply step_text | constructor]|].
      apply Forall_app; split; [eapply good_ostep; [exact C|]; intros x P; now apply step_number|].
      apply Forall_app; split; [eapply good_ostep; [exact Ac|]; intros x P; now apply step_number|].
      apply Forall_app; split; [|eapply good_ostep; [exact Q|]; intros x P; now apply step_text].
      constructor; [|constructor]. apply (step_intro num (S n) _ "payload_float" (VDict [("value", v)]) (VDict [("value", v)])); try reflexivity.
      + now apply value_arrives.
      + apply value_stable, A.
    - unfold steps. destruct (rp_confidence p), (rp_accuracy p), (rp_data_quality p); reflexivity. }
  assert (St : stable num (S (S n)) (report_payload_members p)).
  { apply stable_intro.
    - unfold report_payload_members. apply Forall_app; split; [constructor; [now apply fixed_text | constructor]|].
      apply Forall_app; split; [destruct (rp_confidence p) as [x|]; constructor; [|constructor]; apply fixed_scalar; now destruct x|].
      apply Forall_app; split; [destruct (rp_accuracy p) as [x|]; constructor; [|constructor]; apply fixed_scalar; now destruct x|].
      apply Forall_app; split; [destruct (rp_data_quality p) as [x|]; constructor; [now apply fixed_text|constructor]|].
      constructor; [|constructor]. now apply fixed_scalar.
    - unfold report_payload_members. destruct (rp_confidence p), (rp_accuracy p), (rp_data_quality p); reflexivity. }
  apply (step_intro num (S (S n)) _ "report_payload" (VDict (steps_payload steps)) (VDict (report_payload_members p))).
  - reflexivity.
  - now apply value_arrives.
  - unfold steps, report_payload_members. destruct (rp_confidence p), (rp_accuracy p), (rp_data_quality p); cbn -[to_float]; rewrite F; reflexivity.
  - now apply value_stable.
  - unfold report_payload_members. destruct (rp_confidence p), (rp_accuracy p), (rp_data_quality p); reflexivity.
Qed.

Definition report_interval_steps (i : report_interval) : list (xml * vdict) :=
  ([(node "dtstart" [leaf "date-time" (show_time (ri_dtstart i))], [("dtstart", read_time (ri_dtstart i))])]
   ++ ostep (fun p => node "duration" [leaf "duration" (timedeltaformat p)]) (fun p => [("duration", VDur p)]) (ri_duration i)
   ++ [(report_payload_xml (ri_payload i), [("report_payload", VDict (report_payload_members (ri_payload i)))])])%list.
Lemma report_interval_arrives n i : good_report_interval num i -> arrives (S (S (S n))) (report_interval_xml i) (steps_payload (report_interval_steps i)).
Proof.
  intros (A & B & C & D & E1 & E2 & E3).
  assert (E : report_interval_xml i = node "interval" (map fst (report_interval_steps i))).
  { unfold report_interval_xml, report_interval_steps. cbv zeta. rewrite !map_app, map_ostep. reflexivity. }
  rewrite E. apply arrives_node; [discriminate| |].
  - unfold report_interval_steps. apply Forall_app; split; [constructor; [now apply step_dtstart|constructor]|].
    apply Forall_app; split; [eapply good_ostep; [exact B|]; intros x P; now apply step_duration|].
    constructor; [|constructor]. apply step_report_payload. now repeat (split; [assumption|]).
  - unfold report_interval_steps. destruct (ri_duration i); reflexivity.
Qed.
Lemma report_interval_compact i : compact (steps_payload (report_interval_steps i)) = true.
Proof. unfold report_interval_steps. destruct (ri_duration i); reflexivity. Qed.

Definition report_steps (r : report) : list (xml * vdict) :=
  (ostep (fun t => node "dtstart" [leaf "date-time" (show_time t)]) (fun t => [("dtstart", read_time t)]) (rt_dtstart r)
   ++ match rt_intervals r with [] => [] | l => [(node "intervals" (map report_interval_xml l), [("intervals", VList (map VDict (map (fun i => steps_payload (report_interval_steps i)) l)))])] end
   ++ [(leaf "eiReportID" "", [("report_id", VNone)]); (leaf "reportRequestID" (rt_request_id r), [("report_request_id", VStr (rt_request_id r))]);
       (leaf "reportSpecifierID" (rt_specifier_id r), [("report_specifier_id", VStr (rt_specifier_id r))])]
   ++ ostep (leaf "reportName") (fun s => [("report_name", VStr s)]) (nonempty_text (rt_name r))
   ++ [(leaf "createdDateTime" (show_time (rt_created r)), [("created_date_time", read_time (rt_created r))])])%list.
Lemma report_arrives n r : good_report num r -> arrives (S (S (S (S (S n))))) (report_xml r) (steps_payload (report_steps r)).
Proof.
  intros (A & B & C & D & E1 & E2).
  assert (E : report_xml r = node "oadrReport" (map fst (report_steps r))).
  { unfold report_xml, report_steps. rewrite !map_app, !map_ostep. destruct (rt_intervals r); reflexivity. }
  rewrite E. apply arrives_node.
  - unfold report_steps. destruct (rt_dtstart r), (rt_intervals r); discriminate.
  - unfold report_steps. apply Forall_app; split; [eapply good_ostep; [exact A|]; intros x P; now apply step_dtstart|].
    apply Forall_app; split.
    { destruct (rt_intervals r) as [|i l] eqn:EI; [constructor|]. constructor; [|constructor].
      apply (step_wrapper num (S (S (S n))) "intervals" "interval" "interval"); try reflexivity.
      - apply Forall_map, Forall_forall. reflexivity.
      - discriminate.
      - clear EI. induction B; constructor; [now apply report_interval_arrives | assumption].
      - apply Forall_map, Forall_forall. intros x _. apply report_interval_compact. }
    apply Forall_app; split.
    { constructor; [now apply step_none|]. constructor; [now apply step_text|]. constructor; [now apply step_text|constructor]. }
    apply Forall_app; split.
    { eapply (good_ostep _ plain); [|intros s P; now apply step_text]. destruct (rt_name r) as [[|c s]|]; cbn in *; try exact I. now destruct E1. }
    constructor; [now apply step_time|constructor].
  - unfold report_steps. destruct (rt_dtstart r), (rt_intervals r), (nonempty_text (rt_name r)); reflexivity.
Qed.
Lemma report_compact r : compact (steps_payload (report_steps r)) = true.
Proof. unfold report_steps. destruct (rt_dtstart r), (rt_intervals r), (nonempty_text (rt_name r)); reflexivity. Qed.

(** report, report_request, specifier_payload: always a list. *)
Lemma adds_plural n k key xs ps : startswith "@" k = false -> fkey k = key -> existsb (String.eqb key) ["report_request"; "report"; "specifier_payload"] = true ->
  Forall2 (arrives n) xs ps -> xs <> [] ->
  adds num n (k, one_or_list (map to_val xs)) [(key ++ "s", VList (map VDict ps))].
Proof.
  intros A K P F N d D. rewrite (entry_value num n d _ _ (one_or_list (map VDict ps))); [|assumption|now apply value_many].
  cbn [fst map] in D. rewrite K in D. rewrite K.
  assert (D1 : vget key d = None) by (apply D; now left).
  assert (D2 : vget (key ++ "s") d = None) by (apply D; right; now left).
  assert (T : finish num key (one_or_list (map VDict ps)) d = Ok (vset (key ++ "s") (VList (map VDict ps)) (vdel key (vset key (one_or_list (map VDict ps)) d)))).
  { destruct F as [|x p xs ps A1 F]; [contradiction|].
    apply existsb_in in P. simpl in P. destruct P as [<-|[<-|[<-|[]]]]; destruct ps; reflexivity. }
  rewrite T, (vset_absent key), vdel_last, vset_absent by assumption. reflexivity.
Qed.

Definition update_steps (request_id : string) (rs : list report) (ven_id : option string) : list ((string * val) * vdict) :=
  ([(("requestID", VStr request_id), [("request_id", VStr request_id)])]
   ++ match rs with [] => [] | _ => [(("oadrReport", one_or_list (map to_val (map report_xml rs))), [("reports", VList (map VDict (map (fun r => steps_payload (report_steps r)) rs)))])] end
   ++ match ven_id with Some v => [(("venID", VStr v), [("ven_id", VStr v)])] | None => [] end)%list.

Lemma adds_text n k k' s : text_key k k' = true -> plain s -> adds num n (k, VStr s) [(k', VStr s)].
Proof.
  intros K P. destruct (step_text num n k k' s K P) as [A _]. cbn [fst snd xml_name leaf to_val] in A.
  rewrite text_val_one_line in A by apply P. exact A.
Qed.

Lemma update_report_parsed n request_id rs ven_id :
  plain request_id -> good plain ven_id -> Forall (good_report num) rs ->
  parse_payload num (S (S (S (S (S (S n)))))) (update_report_xml request_id rs ven_id) = Ok (concat (map snd (update_steps request_id rs ven_id))).
Proof.
  intros PR PV G. unfold parse_payload, update_report_xml. rewrite message_items. rewrite !fold_left_app. cbn [fold_left app].
  rewrite push_absent by reflexivity. cbn [app xml_name leaf to_val]. rewrite text_val_one_line by apply PR.
  assert (E : fold_left (fun d c => push d (xml_name c) (to_val c)) (opt (leaf "venID") ven_id)
               (fold_left (fun d c => push d (xml_name c) (to_val c)) (map report_xml rs) [("@schemaVersion", VStr "2.0b"); ("requestID", VStr request_id)])
             = ("@schemaVersion", VStr "2.0b") :: map fst (update_steps request_id rs ven_id)).
  { assert (V : forall d, vget "venID" d = None -> fold_left (fun d c => push d (xml_name c) (to_val c)) (opt (leaf "venID") ven_id) d
                  = (d ++ match ven_id with Some v => [("venID", VStr v)] | None => [] end)%list).
    { intros d D. destruct ven_id as [v|]; cbn [opt fold_left]; [|now rewrite app_nil_r]. rewrite push_absent by exact D.
      cbn [xml_name leaf to_val]. now rewrite text_val_one_line by apply PV. }
    unfold update_steps. rewrite !map_app. destruct rs as [|r rs].
    - cbn [map fold_left]. rewrite V by reflexivity. destruct ven_id; reflexivity.
    - rewrite (push_all "oadrReport" (map report_xml (r :: rs))); [|apply Forall_map, Forall_forall; reflexivity|discriminate|reflexivity].
      rewrite V by reflexivity. destruct ven_id; reflexivity. }
  rewrite E, skip_attribute. apply run.
  - unfold update_steps. apply Forall_app; split; [constructor; [now apply adds_text|constructor]|].
    apply Forall_app; split; [|destruct ven_id; constructor; [now apply adds_text|constructor]].
    destruct rs as [|r rs]; constructor; [|constructor].
    apply (adds_plural _ "oadrReport" "report"); try reflexivity; [|discriminate].
    clear E. induction G; constructor; [now apply report_arrives|assumption].
  - unfold update_steps. destruct rs, ven_id; reflexivity.
Qed.

(** ** oadrDistributeEvent *)
Definition interval_steps (ix : nat) (i : interval) : list (xml * vdict) :=
  (ostep (fun t => node "dtstart" [leaf "date-time" (show_time t)]) (fun t => [("dtstart", read_time t)]) (i_dtstart i)
   ++ ostep (fun p => node "duration" [leaf "duration" (timedeltaformat p)]) (fun p => [("duration", VDur p)]) (i_duration i)
   ++ [(node "uid" [leaf "text" (str_of_Z (Z.of_nat ix))], [("uid", VInt (Z.of_nat ix))]);
       (payload_xml "signalPayload" (i_payload i), [("signal_payload", VFloat (show_number (i_payload i)))])])%list.
Lemma step_uid n z : good_step (S n) (node "uid" [leaf "text" (str_of_Z z)], [("uid", VInt z)]).
Proof.
  assert (A : arrives (S n) (node "uid" [leaf "text" (str_of_Z z)]) [("text", VInt z)]).
  { apply (arrives_node num n "uid" [(leaf "text" (str_of_Z z), [("text", VInt z)])]); [discriminate| |reflexivity].
    constructor; [now apply step_int|constructor]. }
  apply (step_unnest num (S n) _ "uid" [("text", VInt z)] (VInt z)); try reflexivity. exact A.
Qed.
Lemma interval_arrives n ix i : good_interval num i -> arrives (S (S (S n))) (interval_xml ix i) (steps_payload (interval_steps ix i)).
Proof.
  intros (A & B & C).
  assert (E : interval_xml ix i = node "interval" (map fst (interval_steps ix i))) by (unfold interval_xml, interval_steps; rewrite !map_app, !map_ostep; reflexivity).
  rewrite E. apply arrives_node.
  - unfold interval_steps. destruct (i_dtstart i), (i_duration i); discriminate.
  - unfold interval_steps. apply Forall_app; split; [eapply good_ostep; [exact A|]; intros x P; now apply step_dtstart|].
    apply Forall_app; split; [eapply good_ostep; [exact B|]; intros x P; now apply step_duration|].
    constructor; [apply step_uid|]. constructor; [now apply step_payload|constructor].
  - unfold interval_steps. destruct (i_dtstart i), (i_duration i); reflexivity.
Qed.
Lemma interval_compact ix i : compact (steps_payload (interval_steps ix i)) = true.
Proof. unfold interval_steps. destruct (i_dtstart i), (i_duration i); reflexivity. Qed.
Fixpoint intervals_payload (ix : nat) (l : list interval) : list vdict :=
  match l with [] => [] | i :: r => steps_payload (interval_steps ix i) :: intervals_payload (S ix) r end.
Lemma step_intervals n l : l <> [] -> Forall (good_interval num) l ->
  good_step (S (S (S (S n)))) (node "intervals" (intervals_xml 0 l), [("intervals", VList (map VDict (intervals_payload 0 l)))]).
Proof.
  intros N G. apply (step_wrapper num (S (S (S n))) "intervals" "interval" "interval"); try reflexivity.
  - clear. generalize 0%nat. induction l; intros ix; constructor; [reflexivity|apply IHl].
  - destruct l; [contradiction|discriminate].
  - clear N. generalize 0%nat. induction G; intros ix; constructor; [now apply interval_arrives|apply IHG].
  - clear. generalize 0%nat. induction l; intros ix; constructor; [apply interval_compact|apply IHl].
Qed.

(** Measurements, before and after lines 181-201 *)
Definition power_members (p : power_attributes) : vdict := [("hertz", VInt (p_hertz p)); ("voltage", VInt (p_voltage p)); ("ac", VBool (p_ac p))].
Definition power_xml (p : power_attributes) : xml := node "powerAttributes" [leaf "hertz" (str_of_Z (p_hertz p)); leaf "voltage" (str_of_Z (p_voltage p)); leaf "ac" (show_bool (p_ac p))].
Lemma power_arrives n p : arrives (S n) (power_xml p) (power_members p).
Proof.
  apply (arrives_node num n "powerAttributes" [(leaf "hertz" (str_of_Z (p_hertz p)), [("hertz", VInt (p_hertz p))]);
    (leaf "voltage" (str_of_Z (p_voltage p)), [("voltage", VInt (p_voltage p))]); (leaf "ac" (show_bool (p_ac p)), [("ac", VBool (p_ac p))])]); [discriminate| |reflexivity].
  constructor; [now apply step_int|]. constructor; [now apply step_int|]. constructor; [now apply step_bool|constructor].
Qed.
Definition measurement_steps (m : measurement) : list (xml * vdict) :=
  ([(leaf "itemDescription" (m_description m), [("item_description", VStr (m_description m))]); (leaf "itemUnits" (m_unit m), [("item_units", VStr (m_unit m))]);
    match nonzero (m_pulse_factor m) with
    | Some p => (leaf "pulseFactor" (str_of_Z p), [("pulse_factor", VInt p)])
    | None => (leaf "siScaleCode" (m_scale m), [("si_scale_code", VStr (m_scale m))])
    end]
   ++ ostep power_xml (fun p => [("power_attributes", VDict (power_members p))]) (m_power m))%list.
Lemma measurement_arrives n m : good_measurement m -> arrives (S (S n)) (measurement_xml m) (steps_payload (measurement_steps m)).
Proof.
  intros (_ & A & B & C).
  assert (E : measurement_xml m = node (m_name m) (map fst (measurement_steps m))).
  { unfold measurement_xml, measurement_steps. rewrite !map_app, !map_ostep. destruct (nonzero (m_pulse_factor m)); reflexivity. }
  rewrite E. apply arrives_node; [discriminate| |].
  - unfold measurement_steps. apply Forall_app; split.
    + constructor; [now apply step_text|]. constructor; [now apply step_text|]. constructor; [|constructor].
      destruct (nonzero (m_pulse_factor m)); [now apply step_int | now apply step_text].
    + apply good_ostep'. intros p. apply step_dict; try reflexivity. apply power_arrives.
  - unfold measurement_steps. destruct (nonzero (m_pulse_factor m)), (m_power m); reflexivity.
Qed.
Lemma measurement_compact m : compact (steps_payload (measurement_steps m)) = true.
Proof. unfold measurement_steps. destruct (nonzero (m_pulse_factor m)), (m_power m); reflexivity. Qed.
(** The uniform representation. *)
Definition measurement_members (m : measurement) : vdict :=
  ([("name", VStr (m_name m))]
   ++ match m_power m with Some p => [("power_attributes", VDict (power_members p))] | None => [] end
   ++ [("description", VStr (m_description m)); ("unit", VStr (m_unit m))]
   ++ match nonzero (m_pulse_factor m) with Some p => [("pulse_factor", VInt p)] | None => [("scale", VStr (m_scale m))] end)%list.

(** A signal before lines 181-201 *)
Definition signal_steps (s : signal) : list (xml * vdict) :=
  ([(node "intervals" (intervals_xml 0 (s_intervals s)), [("intervals", VList (map VDict (intervals_payload 0 (s_intervals s))))]);
    (leaf "signalName" (s_name s), [("signal_name", VStr (s_name s))]); (leaf "signalType" (s_type s), [("signal_type", VStr (s_type s))]);
    (leaf "signalID" (s_id s), [("signal_id", VStr (s_id s))])]
   ++ ostep measurement_xml (fun m => [(m_name m, VDict (steps_payload (measurement_steps m)))]) (s_measurement s)
   ++ ostep (payload_xml "currentValue") (fun x => [("current_value", VFloat (show_number x))]) (s_current_value s))%list.
Lemma namespace_keyed k : In k measurement_namespaces -> keyed k k = true /\ dict_key k = true.
Proof. intros I. simpl in I. repeat (destruct I as [<-|I]; [split; reflexivity|]). contradiction. Qed.
Lemma signal_arrives n s : good_signal num s -> arrives (S (S (S (S (S n))))) (signal_xml s) (steps_payload (signal_steps s)).
Proof.
  intros (N & A & B & C & D & M & V).
  assert (E : signal_xml s = node "eiEventSignal" (map fst (signal_steps s))) by (unfold signal_xml, signal_steps; rewrite !map_app, !map_ostep; reflexivity).
  rewrite E. apply arrives_node; [discriminate| |].
  - unfold signal_steps. apply Forall_app; split.
    + constructor; [now apply step_intervals|]. constructor; [now apply step_text|]. constructor; [now apply step_text|]. constructor; [now apply step_text|constructor].
    + apply Forall_app; split; [|eapply good_ostep; [exact V|]; intros x P; now apply step_payload].
      eapply good_ostep; [exact M|]. intros m G. destruct (namespace_keyed (m_name m)) as [K K2]; [apply G|].
      apply step_dict; try assumption; [apply measurement_compact | now apply measurement_arrives].
  - unfold signal_steps. destruct (s_measurement s) as [m|]; [|destruct (s_current_value s); reflexivity].
    destruct M as [M _]. unfold steps_fresh.
    cbn [app ostep map flat_map fst snd xml_name leaf node measurement_xml payload_xml].
    revert M. generalize (m_name m) as k. intros k I. clear - I. simpl in I.
    destruct (s_current_value s); repeat (destruct I as [<-|I]; [reflexivity|]); contradiction.
Qed.


(** A signal after lines 181-201 *)
Definition signal_members (s : signal) (m : measurement) : vdict :=
  ([("intervals", VList (map VDict (intervals_payload 0 (s_intervals s)))); ("signal_name", VStr (s_name s)); ("signal_type", VStr (s_type s));
    ("signal_id", VStr (s_id s))]
   ++ match s_current_value s with Some x => [("current_value", VFloat (show_number x))] | None => [] end
   ++ [("measurement", VDict (measurement_members m))])%list.
Lemma find_only (d : vdict) k l : In k l -> (forall m, In m l -> vmem m d = String.eqb m k) -> find (fun m => vmem m d) l = Some k.
Proof.
  induction l as [|a l IH]; intros I H; [contradiction|]. cbn [find]. rewrite (H a) by now left.
  destruct (String.eqb_spec a k) as [->|N]; [reflexivity|]. apply IH; [|intros m J; apply H; now right].
  destruct I as [->|I]; [contradiction|assumption].
Qed.
Lemma vmem_mid k name v (a b : vdict) : vget k a = None -> vget k b = None -> vmem k (a ++ (name, v) :: b)%list = String.eqb k name.
Proof.
  intros A B. unfold vmem, mem. fold (vget k (a ++ (name, v) :: b)%list). rewrite vget_app, A. unfold vget in *. cbn [get].
  destruct (String.eqb k name); [reflexivity|]. now rewrite B.
Qed.
Lemma measured_signal s : good good_measurement (s_measurement s) ->
  measured (VDict (steps_payload (signal_steps s))) = Ok (match s_measurement s with Some m => Some (VDict (signal_members s m)) | None => None end).
Proof.
  intros G. destruct (s_measurement s) as [m|] eqn:EM.
  - destruct G as [G _]. unfold signal_steps. rewrite EM. unfold measured.
    set (d := steps_payload _).
    assert (D : d = ([("intervals", VList (map VDict (intervals_payload 0 (s_intervals s)))); ("signal_name", VStr (s_name s)); ("signal_type", VStr (s_type s));
      ("signal_id", VStr (s_id s)); (m_name m, VDict (steps_payload (measurement_steps m)))]
      ++ match s_current_value s with Some x => [("current_value", VFloat (show_number x))] | None => [] end)%list).
    { unfold d, steps_payload. rewrite !flat_map_app. destruct (s_current_value s); reflexivity. }
    clearbody d. subst d.
    rewrite (find_only _ (m_name m)).
    + assert (V : vget (m_name m) ([("intervals", VList (map VDict (intervals_payload 0 (s_intervals s)))); ("signal_name", VStr (s_name s)); ("signal_type", VStr (s_type s));
      ("signal_id", VStr (s_id s)); (m_name m, VDict (steps_payload (measurement_steps m)))]
      ++ match s_current_value s with Some x => [("current_value", VFloat (show_number x))] | None => [] end)%list = Some (VDict (steps_payload (measurement_steps m)))).
      { revert G. generalize (m_name m) as k. intros k I. simpl in I. repeat (destruct I as [<-|I]; [reflexivity|]). contradiction. }
      rewrite V. clear V.
      assert (W : vdel (m_name m) ([("intervals", VList (map VDict (intervals_payload 0 (s_intervals s)))); ("signal_name", VStr (s_name s)); ("signal_type", VStr (s_type s));
      ("signal_id", VStr (s_id s)); (m_name m, VDict (steps_payload (measurement_steps m)))]
      ++ match s_current_value s with Some x => [("current_value", VFloat (show_number x))] | None => [] end)%list
      = ([("intervals", VList (map VDict (intervals_payload 0 (s_intervals s)))); ("signal_name", VStr (s_name s)); ("signal_type", VStr (s_type s));
      ("signal_id", VStr (s_id s))]
      ++ match s_current_value s with Some x => [("current_value", VFloat (show_number x))] | None => [] end)%list).
      { revert G. generalize (m_name m) as k. intros k I. simpl in I. repeat (destruct I as [<-|I]; [reflexivity|]). contradiction. }
      rewrite W. clear W. unfold signal_members, measurement_members, measurement_steps.
      destruct (nonzero (m_pulse_factor m)), (m_power m), (s_current_value s); reflexivity.
    + exact G.
    + intros k I. revert G. generalize (m_name m) as name. intros name J. clear - I.
      apply (vmem_mid k name _ [("intervals", VList (map VDict (intervals_payload 0 (s_intervals s)))); ("signal_name", VStr (s_name s)); ("signal_type", VStr (s_type s));
        ("signal_id", VStr (s_id s))]); unfold measurement_namespaces in I; simpl in I.
      * repeat (destruct I as [<-|I]; [reflexivity|]). contradiction.
      * repeat (destruct I as [<-|I]; [destruct (s_current_value s); reflexivity|]). contradiction.
  - unfold signal_steps. rewrite EM. destruct (s_current_value s); reflexivity.
Qed.

(** The signals of an event: a signal without a measurement ends the conversion. *)
Fixpoint received (l : list signal) : list vdict :=
  match l with
  | [] => []
  | s :: r => match s_measurement s with
              | Some m => signal_members s m :: received r
              | None => map (fun s => steps_payload (signal_steps s)) (s :: r)
              end
  end.
Lemma measured_signals l : Forall (good_signal num) l ->
  measured_all (map VDict (map (fun s => steps_payload (signal_steps s)) l)) = Ok (map VDict (received l)).
Proof.
  induction l as [|s l IH]; intros F; [reflexivity|]. inversion F as [|? ? G F']; subst. cbn [map measured_all].
  rewrite measured_signal by apply G. cbn [bind received]. destruct (s_measurement s); [|reflexivity].
  rewrite IH by assumption. reflexivity.
Qed.

Lemma fixed_dict n k p : keyed k k = true -> dict_key k = true -> compact p = true -> stable num n p -> adds num n (k, VDict p) [(k, VDict p)] /\ fkey k = k.
Proof. intros K D C S. apply fixed_intro; [assumption|now apply value_stable|now apply unnest_compact]. Qed.
Lemma fixed_list n k ps : keyed k k = true -> leaf_key k = true -> Forall (stable num n) ps -> adds num n (k, VList (map VDict ps)) [(k, VList (map VDict ps))] /\ fkey k = k.
Proof. intros K L S. apply fixed_intro; [assumption|now apply value_list|now apply unnest_leaf]. Qed.

Lemma intervals_stable n ix l : Forall (good_interval num) l -> Forall (stable num (S (S (S n)))) (intervals_payload ix l).
Proof. intros F. revert ix. induction F; intros ix; constructor; [now apply interval_arrives|apply IHF]. Qed.
Lemma measurement_members_compact m : compact (measurement_members m) = true.
Proof. unfold measurement_members. destruct (nonzero (m_pulse_factor m)), (m_power m); reflexivity. Qed.
Lemma namespace_plain k : In k measurement_namespaces -> plain k.
Proof.
  assert (P : forall k, one_line k -> match unsigned k with String c _ => is_digit c || Ascii.eqb c "." | EmptyString => false end = false -> k <> "true" -> k <> "false" -> plain k).
  { intros s O U A B. repeat (split; [assumption|]). intros L. apply looks_float_spec in L. unfold looks_float in L.
    destruct (unsigned s); [discriminate|]. cbn [digits_and_dots] in L. apply andb_true_iff in L as [L _]. congruence. }
  intros I. unfold measurement_namespaces in I. apply P.
  - apply unblank_one_line.
    + simpl in I. repeat (destruct I as [<-|I]; [repeat (apply char_unblank; [reflexivity|]); exact Logic.I|]). contradiction.
    + simpl in I. repeat (destruct I as [<-|I]; [discriminate|]). contradiction.
  - simpl in I. repeat (destruct I as [<-|I]; [reflexivity|]). contradiction.
  - simpl in I. repeat (destruct I as [<-|I]; [discriminate|]). contradiction.
  - simpl in I. repeat (destruct I as [<-|I]; [discriminate|]). contradiction.
Qed.
Lemma measurement_members_stable n m : good_measurement m -> stable num (S (S n)) (measurement_members m).
Proof.
  intros (I & A & B & C). apply stable_intro.
  - unfold measurement_members. constructor; [now apply fixed_text; [|apply namespace_plain]|].
    apply Forall_app; split; [destruct (m_power m) as [p|]; constructor; [|constructor]; apply fixed_dict; try reflexivity; apply power_arrives|].
    apply Forall_app; split; [constructor; [now apply fixed_text|constructor; [now apply fixed_text|constructor]]|].
    destruct (nonzero (m_pulse_factor m)); constructor; [now apply fixed_int|constructor|now apply fixed_text|constructor].
  - unfold measurement_members. destruct (nonzero (m_pulse_factor m)), (m_power m); reflexivity.
Qed.
Lemma signal_members_stable n s m : good_signal num s -> s_measurement s = Some m -> stable num (S (S (S (S n)))) (signal_members s m).
Proof.
  intros (N & A & B & C & D & M & V) E. rewrite E in M. apply stable_intro.
  - unfold signal_members. apply Forall_app; split.
    + constructor; [now apply fixed_list; [..|apply intervals_stable]|]. constructor; [now apply fixed_text|]. constructor; [now apply fixed_text|].
      constructor; [now apply fixed_text|constructor].
    + apply Forall_app; split.
      * destruct (s_current_value s); constructor; [|constructor]. now apply fixed_scalar.
      * constructor; [|constructor]. apply fixed_dict; try reflexivity; [apply measurement_members_compact|].
        apply (stable_deeper num 2); [lia|]. now apply (measurement_members_stable 0).
  - unfold signal_members. destruct (s_current_value s); reflexivity.
Qed.
Lemma received_stable n l : Forall (good_signal num) l -> Forall (stable num (S (S (S (S (S n)))))) (received l).
Proof.
  induction l as [|s l IH]; intros F; [constructor|]. inversion F as [|? ? G F']; subst. cbn [received].
  destruct (s_measurement s) as [m|] eqn:E.
  - constructor; [|now apply IH]. apply (stable_deeper num 4); [lia|]. now apply (signal_members_stable 0).
  - apply Forall_map. eapply Forall_impl; [|exact F]. intros x Gx. now apply signal_arrives.
Qed.

Lemma adds_signals n l : Forall (good_signal num) l -> l <> [] ->
  adds num (S (S (S (S (S n))))) ("eiEventSignal", one_or_list (map to_val (map signal_xml l))) [("event_signals", VList (map VDict (received l)))].
Proof.
  intros G N d D.
  rewrite (entry_value num _ d _ _ (one_or_list (map VDict (map (fun s => steps_payload (signal_steps s)) l)))); [|reflexivity|].
  2:{ apply value_many; [|destruct l; [contradiction|discriminate]]. clear N D d. induction G; [constructor|]. constructor; [now apply signal_arrives|assumption]. }
  change (fkey "eiEventSignal") with "event_signal". change (fkey (fst ("eiEventSignal", one_or_list (map to_val (map signal_xml l))))) with "event_signal" in D. cbn [map fst] in D.
  assert (D1 : vget "event_signal" d = None) by (apply D; now left).
  assert (D2 : vget "event_signals" d = None) by (apply D; right; now left).
  pose proof (measured_signals l G) as M.
  assert (T : finish num "event_signal" (one_or_list (map VDict (map (fun s => steps_payload (signal_steps s)) l))) d
              = bind (measured_all (map VDict (map (fun s => steps_payload (signal_steps s)) l)))
                  (fun r => Ok (vset "event_signals" (VList r) (vdel "event_signal" (vset "event_signal" (one_or_list (map VDict (map (fun s => steps_payload (signal_steps s)) l))) d))))).
  { destruct l as [|s [|s2 l]]; [contradiction| |]; reflexivity. }
  rewrite T, M. cbn [bind]. rewrite (vset_absent "event_signal"), vdel_last, vset_absent by assumption. reflexivity.
Qed.
Lemma step_signals n l : Forall (good_signal num) l -> l <> [] ->
  good_step (S (S (S (S (S (S n)))))) (node "eiEventSignals" (map signal_xml l), [("event_signals", VList (map VDict (received l)))]).
Proof.
  intros G N. apply (step_intro num _ _ "event_signals" (VDict [("event_signals", VList (map VDict (received l)))])).
  - reflexivity.
  - rewrite (to_val_many "eiEventSignals" "eiEventSignal"); [|apply Forall_map, Forall_forall; reflexivity|destruct l; [contradiction|discriminate]].
    cbn [value_of].
    pose proof (run num (S (S (S (S (S n))))) [(("eiEventSignal", one_or_list (map to_val (map signal_xml l))), [("event_signals", VList (map VDict (received l)))])]) as R.
    cbn [map fst snd concat app] in R. rewrite R; [reflexivity| |reflexivity]. constructor; [|constructor]. now apply adds_signals.
  - reflexivity.
  - apply value_list. now apply received_stable.
  - reflexivity.
Qed.

(** The descriptor *)
Definition descriptor_steps (e : descriptor) : list (xml * vdict) :=
  ([(leaf "eventID" (d_event_id e), [("event_id", VStr (d_event_id e))]);
    (leaf "modificationNumber" (str_of_Z (d_modification_number e)), [("modification_number", VInt (d_modification_number e))])]
   ++ ostep (fun t => leaf "modificationDateTime" (show_time t)) (fun t => [("modification_date_time", read_time t)]) (d_modification_date_time e)
   ++ ostep (leaf "modificationReason") (fun s => [("modification_reason", VStr s)]) (d_modification_reason e)
   ++ ostep (fun p => leaf "priority" (str_of_Z p)) (fun p => [("priority", VInt p)]) (d_priority e)
   ++ [(node "eiMarketContext" [leaf "marketContext" (d_market_context e)], [("market_context", VStr (d_market_context e))]);
       (leaf "createdDateTime" (show_time (d_created e)), [("created_date_time", read_time (d_created e))]); (leaf "eventStatus" (d_status e), [("event_status", VStr (d_status e))])]
   ++ ostep (fun b => leaf "testEvent" (show_bool b)) (fun b => [("test_event", VBool b)]) (d_test_event e)
   ++ ostep (leaf "vtnComment") (fun s => [("vtn_comment", VStr s)]) (d_vtn_comment e))%list.
Lemma step_market n s : plain s -> good_step (S n) (node "eiMarketContext" [leaf "marketContext" s], [("market_context", VStr s)]).
Proof.
  intros P. apply (step_intro num (S n) _ "market_context" (VDict [("market_context", VStr s)])).
  - reflexivity.
  - apply value_arrives. apply (arrives_node num n "eiMarketContext" [(leaf "marketContext" s, [("market_context", VStr s)])]); [discriminate| |reflexivity].
    constructor; [now apply step_text|constructor].
  - reflexivity.
  - cbn [value_of]. destruct P as (_ & A & B & C). now apply interpret_plain.
  - reflexivity.
Qed.
Lemma descriptor_arrives n e : good_descriptor e -> arrives (S (S n)) (descriptor_xml e) (steps_payload (descriptor_steps e)).
Proof.
  intros (A & B & C & D & E1 & E2 & E3).
  assert (E : descriptor_xml e = node "eventDescriptor" (map fst (descriptor_steps e))) by (unfold descriptor_xml, descriptor_steps; rewrite !map_app, !map_ostep; reflexivity).
  rewrite E. apply arrives_node; [discriminate| |].
  - unfold descriptor_steps. apply Forall_app; split; [constructor; [now apply step_text|constructor; [now apply step_int|constructor]]|].
    apply Forall_app; split; [eapply good_ostep; [exact B|]; intros x P; now apply step_time|].
    apply Forall_app; split; [eapply good_ostep; [exact C|]; intros x P; now apply step_text|].
    apply Forall_app; split; [apply good_ostep'; intros x; now apply step_int|].
    apply Forall_app; split; [constructor; [now apply step_market|constructor; [now apply step_time|constructor; [now apply step_text|constructor]]]|].
    apply Forall_app; split; [apply good_ostep'; intros x; apply step_test_event|].
    eapply good_ostep; [exact E3|]; intros x P; now apply step_text.
  - unfold descriptor_steps. destruct (d_modification_date_time e), (d_modification_reason e), (d_priority e), (d_test_event e), (d_vtn_comment e); reflexivity.
Qed.
Lemma descriptor_compact e : compact (steps_payload (descriptor_steps e)) = true.
Proof. unfold descriptor_steps. destruct (d_modification_date_time e), (d_modification_reason e), (d_priority e), (d_test_event e), (d_vtn_comment e); reflexivity. Qed.

(** The active period *)
Definition period_steps (a : active_period) : list (xml * vdict) :=
  ([(node "dtstart" [leaf "date-time" (show_time (a_dtstart a))], [("dtstart", read_time (a_dtstart a))]);
    (node "duration" [leaf "duration" (timedeltaformat (a_duration a))], [("duration", VDur (a_duration a))])]
   ++ ostep (fun p => node "tolerance" [node "tolerate" [leaf "startafter" (timedeltaformat p)]]) (fun p => [("tolerance", VDict [("tolerate", VDict [("startafter", VDur p)])])]) (a_startafter a)
   ++ ostep (fun p => node "x-eiNotification" [leaf "duration" (timedeltaformat p)]) (fun p => [("notification", VDur p)]) (nonzero (a_notification a))
   ++ ostep (fun p => node "x-eiRampUp" [leaf "duration" (timedeltaformat p)]) (fun p => [("ramp_up", VDur p)]) (nonzero (a_ramp_up a))
   ++ ostep (fun p => node "x-eiRecovery" [leaf "duration" (timedeltaformat p)]) (fun p => [("recovery", VDur p)]) (nonzero (a_recovery a)))%list.
Lemma step_tolerance n p : good_duration p ->
  good_step (S (S n)) (node "tolerance" [node "tolerate" [leaf "startafter" (timedeltaformat p)]], [("tolerance", VDict [("tolerate", VDict [("startafter", VDur p)])])]).
Proof.
  intros G.
  assert (A : arrives (S n) (node "tolerate" [leaf "startafter" (timedeltaformat p)]) [("startafter", VDur p)]).
  { apply (arrives_node num n "tolerate" [(leaf "startafter" (timedeltaformat p), [("startafter", VDur p)])]); [discriminate| |reflexivity].
    constructor; [|constructor]. apply step_leaf; try reflexivity; [apply timedeltaformat_one_line | now apply interpret_duration]. }
  assert (A' : arrives (S (S n)) (node "tolerance" [node "tolerate" [leaf "startafter" (timedeltaformat p)]]) [("tolerate", VDict [("startafter", VDur p)])]).
  { apply (arrives_node num (S n) "tolerance" [(node "tolerate" [leaf "startafter" (timedeltaformat p)], [("tolerate", VDict [("startafter", VDur p)])])]); [discriminate| |reflexivity].
    constructor; [|constructor]. apply (step_intro num (S n) _ "tolerate" (VDict [("startafter", VDur p)])); first [reflexivity | now apply value_arrives | apply value_stable, A]. }
  apply (step_intro num (S (S n)) _ "tolerance" (VDict [("tolerate", VDict [("startafter", VDur p)])])); first [reflexivity | now apply value_arrives | apply value_stable, A'].
Qed.
Lemma good_nonzero o : good good_duration o -> good good_duration (nonzero o).
Proof. destruct o as [[| |]|]; cbn; auto. Qed.
Lemma period_properties_arrives n a : good_period a ->
  arrives (S (S (S n))) (node "properties" (map fst (period_steps a))) (steps_payload (period_steps a)).
Proof.
  intros (A & B & C & D & E1 & E2). apply arrives_node; [discriminate| |].
  - unfold period_steps. apply Forall_app; split; [constructor; [now apply step_dtstart|constructor; [now apply step_duration|constructor]]|].
    apply Forall_app; split; [eapply good_ostep; [exact C|]; intros x P; now apply step_tolerance|].
    apply Forall_app; split; [eapply good_ostep; [apply good_nonzero, D|]; intros x P; now apply step_duration|].
    apply Forall_app; split; [eapply good_ostep; [apply good_nonzero, E1|]; intros x P; now apply step_duration|].
    eapply good_ostep; [apply good_nonzero, E2|]; intros x P; now apply step_duration.
  - unfold period_steps. destruct (a_startafter a), (nonzero (a_notification a)), (nonzero (a_ramp_up a)), (nonzero (a_recovery a)); reflexivity.
Qed.
Lemma step_period n a : good_period a -> good_step (S (S (S (S n)))) (active_period_xml a, [("active_period", VDict (steps_payload (period_steps a)))]).
Proof.
  intros G. pose proof (period_properties_arrives n a G) as A.
  assert (E : active_period_xml a = node "eiActivePeriod" [node "properties" (map fst (period_steps a)); leaf "components" ""]).
  { unfold active_period_xml, period_steps. rewrite !map_app, !map_ostep. reflexivity. }
  assert (C : compact (steps_payload (period_steps a)) = true).
  { unfold period_steps. destruct (a_startafter a), (nonzero (a_notification a)), (nonzero (a_ramp_up a)), (nonzero (a_recovery a)); reflexivity. }
  rewrite E.
  assert (A' : arrives (S (S (S (S n)))) (node "eiActivePeriod" [node "properties" (map fst (period_steps a)); leaf "components" ""])
                [("properties", VDict (steps_payload (period_steps a))); ("components", VNone)]).
  { apply (arrives_node num (S (S (S n))) "eiActivePeriod" [(node "properties" (map fst (period_steps a)), [("properties", VDict (steps_payload (period_steps a)))]);
      (leaf "components" "", [("components", VNone)])]); [discriminate| |reflexivity].
    constructor; [now apply step_dict|]. constructor; [now apply step_none|constructor]. }
  apply (step_intro num (S (S (S (S n)))) _ "active_period" (VDict [("properties", VDict (steps_payload (period_steps a))); ("components", VNone)])); try reflexivity.
  - now apply value_arrives.
  - apply value_stable. apply (stable_deeper num (S (S (S n)))); [lia|apply A].
  - now apply unnest_compact.
Qed.

(** The targets *)
Definition group : Type := string * string * list string.
Definition target_groups (ts : list target) : list group :=
  [("groupID", "group_id", targets_of t_group_id ts); ("groupName", "group_name", targets_of t_group_name ts); ("resourceID", "resource_id", targets_of t_resource_id ts);
   ("venID", "ven_id", targets_of t_ven_id ts); ("partyID", "party_id", targets_of t_party_id ts)].
Definition group_xmls (g : group) : list xml := let '(name, _, l) := g in map (leaf name) l.
Definition group_step (g : group) : list ((string * val) * vdict) :=
  let '(name, key, l) := g in match l with [] => [] | _ => [((name, one_or_list (map VStr l)), [(key, one_or_list (map VStr l))])] end.
Definition group_targets (g : group) : list (string * val) := let '(_, key, l) := g in map (fun s => (key, VStr s)) l.
Definition group_type (g : group) : vdict := let '(_, key, l) := g in match l with [] => [] | _ => [(key, VList (map VStr l))] end.
Definition group_good (g : group) : Prop := let '(name, key, l) := g in text_key name key = true /\ text_key key key = true /\ Forall plain l.

Lemma targets_of_plain f k ts : In (k, f) kinds -> Forall good_target ts -> Forall plain (targets_of f ts).
Proof.
  intros I F. induction F as [|t ts G F IH]; [constructor|]. cbn [targets_of flat_map]. apply Forall_app; split; [|exact IH].
  specialize (G k f I). destruct (f t) as [s|]; [|constructor]. cbn in G.
  destruct (String.eqb_spec s "") as [->|N]; [constructor|]. constructor; [tauto|constructor].
Qed.
Lemma target_groups_good ts : Forall good_target ts -> Forall group_good (target_groups ts).
Proof.
  intros F. unfold target_groups.
  repeat (constructor; [split; [reflexivity|split; [reflexivity|]]; eapply targets_of_plain; [|exact F]; unfold kinds; simpl; tauto|]). constructor.
Qed.
Lemma target_xmls_of name f ts : target_xmls name f ts = map (leaf name) (targets_of f ts).
Proof.
  induction ts as [|t ts IH]; [reflexivity|]. unfold target_xmls, targets_of in *. cbn [flat_map]. rewrite map_app, IH.
  destruct (f t) as [[|c s]|]; reflexivity.
Qed.
Lemma event_target_groups ts : event_target_xml ts = node "eiTarget" (flat_map group_xmls (target_groups ts)).
Proof. unfold event_target_xml, target_groups. rewrite !target_xmls_of. cbn [flat_map group_xmls]. now rewrite app_nil_r. Qed.

Lemma one_line_vals name l : Forall plain l -> map to_val (map (leaf name) l) = map VStr l.
Proof.
  induction 1 as [|s l P F IH]; [reflexivity|]. cbn [map]. rewrite IH. f_equal. cbn [to_val leaf]. apply text_val_one_line, P.
Qed.
Lemma push_groups gs : forall d, Forall group_good gs -> NoDup (map fst d ++ map (fun g => fst (fst g)) gs)%list ->
  fold_left (fun d c => push d (xml_name c) (to_val c)) (flat_map group_xmls gs) d = (d ++ map fst (flat_map group_step gs))%list.
Proof.
  induction gs as [|[[name key] l] gs IH]; intros d F N; cbn [flat_map]; [cbn; now rewrite app_nil_r|].
  inversion F as [|? ? G F']; subst. destruct G as (K & K2 & P). rewrite fold_left_app. cbn [group_xmls group_step].
  destruct l as [|s l].
  - cbn [map fold_left app]. apply IH; [assumption|]. cbn [map] in N. now apply NoDup_remove_1 in N.
  - rewrite (push_all name (map (leaf name) (s :: l))).
    + rewrite one_line_vals by assumption. rewrite IH; [|assumption|].
      * cbn [app map fst]. now rewrite <- app_assoc.
      * rewrite map_app, <- app_assoc. exact N.
    + apply Forall_map, Forall_forall. reflexivity.
    + discriminate.
    + apply vget_none. cbn [map fst] in N. apply NoDup_remove_2 in N. intros I. apply N, in_or_app. now left.
Qed.
Lemma mapM_strs {B} (f : val -> result B) g l : (forall s, f (VStr s) = Ok (g s)) -> mapM f (map VStr l) = Ok (map g l).
Proof. intros H. induction l as [|s l IH]; [reflexivity|]. cbn [map mapM]. rewrite H, IH. reflexivity. Qed.
Lemma value_strs n k l : value_of num n k (VList (map VStr l)) = Ok (VList (map VStr l)).
Proof. cbn [value_of]. rewrite (mapM_strs _ VStr); reflexivity. Qed.
Lemma group_adds n g : group_good g -> Forall (fun s => adds num n (fst s) (snd s)) (group_step g).
Proof.
  destruct g as [[name key] l]. intros (K & K2 & P). cbn [group_step]. destruct l as [|s [|s2 l]]; [constructor| |].
  - constructor; [|constructor]. inversion P; subst. cbn [map one_or_list fst snd]. now apply adds_text.
  - constructor; [|constructor]. cbn [fst snd one_or_list map].
    unfold text_key, keyed in K. rewrite !andb_true_iff, !negb_true_iff, !String.eqb_eq in K. destruct K as (((((K & L) & _) & _) & _) & _).
    destruct K as (((((A & B) & C) & _) & D) & E).
    pose proof (adds_general num n name (VList (VStr s :: VStr s2 :: map VStr l)) (VList (VStr s :: VStr s2 :: map VStr l)) (Some (VList (VStr s :: VStr s2 :: map VStr l)))) as H.
    rewrite B in H. apply H; [assumption|assumption| |now apply unnest_leaf].
    exact (value_strs n (normalize_key name) (s :: s2 :: l)).
Qed.
Lemma groups_read n ts : Forall good_target ts ->
  nz (S n) (map fst (flat_map group_step (target_groups ts))) = Ok (concat (map snd (flat_map group_step (target_groups ts)))).
Proof.
  intros G. apply run.
  - apply Forall_flat_map. eapply Forall_impl; [|apply target_groups_good, G]. intros g Hg. now apply group_adds.
  - unfold target_groups.
    destruct (targets_of t_group_id ts), (targets_of t_group_name ts), (targets_of t_resource_id ts), (targets_of t_ven_id ts), (targets_of t_party_id ts); reflexivity.
Qed.
Lemma group_new g : flat_map (fun kv : string * val => match snd kv with VList l => map (fun v => (fst kv, v)) l | v => [(fst kv, v)] end) (concat (map snd (group_step g))) = group_targets g.
Proof.
  destruct g as [[name key] l]. cbn [group_step group_targets]. destruct l as [|s [|s2 l]]; [reflexivity|reflexivity|].
  cbn [map concat snd flat_map fst one_or_list app]. rewrite app_nil_r. cbn [map]. do 2 f_equal. now rewrite map_map.
Qed.
Definition event_targets (ts : list target) : list (string * val) := flat_map group_targets (target_groups ts).
Definition event_types (ts : list target) : vdict := flat_map group_type (target_groups ts).
Lemma groups_new gs : flat_map (fun kv : string * val => match snd kv with VList l => map (fun v => (fst kv, v)) l | v => [(fst kv, v)] end) (concat (map snd (flat_map group_step gs)))
  = flat_map group_targets gs.
Proof.
  induction gs as [|g gs IH]; [reflexivity|]. cbn [flat_map]. rewrite map_app, concat_app, flat_map_app, IH. f_equal. apply group_new.
Qed.

Lemma vget_last k v (d : vdict) : vget k d = None -> vget k (d ++ [(k, v)])%list = Some v.
Proof. intros H. rewrite vget_app, H. unfold vget. cbn [get]. now rewrite String.eqb_refl. Qed.
Definition group_in (d : vdict) (kv : string * val) : vdict :=
  match snd kv with
  | VNone => d
  | v => vset (fst kv) (VList ((match vget (fst kv) d with Some (VList l) => l | _ => [] end) ++ [v])%list) d
  end.
Lemma group_more key l : forall d l0, vget key d = None ->
  fold_left group_in (map (fun s => (key, VStr s)) l) (d ++ [(key, VList l0)])%list = (d ++ [(key, VList (l0 ++ map VStr l))])%list.
Proof.
  induction l as [|s l IH]; intros d l0 D; cbn [map fold_left]; [now rewrite app_nil_r|].
  unfold group_in at 2. cbn [snd fst]. rewrite vget_last, vset_last by assumption. rewrite IH by assumption. now rewrite <- app_assoc.
Qed.
Lemma group_from gs : forall d, NoDup (map fst d ++ map (fun g : group => snd (fst g)) gs)%list ->
  fold_left group_in (flat_map group_targets gs) d = (d ++ flat_map group_type gs)%list.
Proof.
  induction gs as [|[[name key] l] gs IH]; intros d N; cbn [flat_map]; [cbn; now rewrite app_nil_r|].
  rewrite fold_left_app. cbn [group_targets group_type map fst snd] in *.
  assert (D : vget key d = None) by (apply vget_none; intros I; apply NoDup_remove_2 in N; apply N, in_or_app; now left).
  destruct l as [|s l].
  - cbn [map fold_left app]. apply IH. now apply NoDup_remove_1 in N.
  - cbn [map fold_left].
    assert (E : group_in d (key, VStr s) = (d ++ [(key, VList [VStr s])])%list) by (unfold group_in; cbn [snd fst]; rewrite D; now rewrite vset_absent).
    rewrite E.
    rewrite (group_more key l d [VStr s]) by assumption. rewrite IH.
    + now rewrite <- app_assoc.
    + rewrite map_app, <- app_assoc. exact N.
Qed.
Lemma grouped_targets ts : grouped (event_targets ts) = event_types ts.
Proof.
  unfold grouped, event_targets. change (fold_left group_in (flat_map group_targets (target_groups ts)) [] = event_types ts).
  rewrite group_from; [reflexivity|]. apply nodupb_spec. reflexivity.
Qed.

Definition target_members (ts : list target) : vdict :=
  [("targets", VList (map VDict (map (fun kv => [kv]) (event_targets ts)))); ("targets_by_type", VDict (event_types ts))].
Lemma no_groups gs : flat_map group_xmls gs = [] -> flat_map group_targets gs = [] /\ flat_map group_type gs = [].
Proof.
  induction gs as [|[[name key] l] gs IH]; [now split|]. cbn [flat_map group_xmls group_targets group_type]. intros H. apply app_eq_nil in H as [A B].
  destruct l; [|discriminate]. cbn [map app]. now apply IH.
Qed.
Lemma some_groups gs : flat_map group_xmls gs <> [] -> concat (map snd (flat_map group_step gs)) <> [].
Proof.
  induction gs as [|[[name key] l] gs IH]; [auto|]. cbn [flat_map group_xmls group_step]. rewrite map_app, concat_app. intros N E. apply app_eq_nil in E as [A B].
  destruct l; [|discriminate]. now apply IH.
Qed.
Lemma adds_target n ts : Forall good_target ts -> adds num (S n) ("eiTarget", to_val (event_target_xml ts)) (target_members ts).
Proof.
  intros G d D.
  assert (V : exists v, value_of num (S n) (normalize_key "eiTarget") (to_val (event_target_xml ts)) = Ok v /\ new_targets v = Ok (event_targets ts)).
  { rewrite event_target_groups. destruct (flat_map group_xmls (target_groups ts)) as [|x xs] eqn:E.
    - exists VNone. split; [reflexivity|]. unfold event_targets. destruct (no_groups _ E) as [-> _]. reflexivity.
    - exists (VDict (concat (map snd (flat_map group_step (target_groups ts))))). rewrite to_val_node by discriminate. rewrite <- E.
      rewrite push_groups; [|now apply target_groups_good|apply nodupb_spec; reflexivity]. cbn [value_of app]. rewrite groups_read by assumption. split; [reflexivity|].
      pose proof (some_groups (target_groups ts)) as S. rewrite E in S. specialize (S ltac:(discriminate)).
      pose proof (groups_new (target_groups ts)) as W. unfold new_targets, event_targets.
      destruct (concat (map snd (flat_map group_step (target_groups ts)))) as [|kv r]; [contradiction|]. cbn [vtruthy negb]. now rewrite W. }
  destruct V as (v & V & T). rewrite (entry_value num (S n) d _ _ v); [|reflexivity|exact V].
  change (fkey "eiTarget") with "target". change (fkey (fst ("eiTarget", to_val (event_target_xml ts)))) with "target" in D. cbn [target_members map fst] in D.
  unfold finish. cbn [String.eqb Ascii.eqb Bool.eqb]. rewrite T. cbn [bind]. rewrite vdel_absent by (apply D; now left).
  rewrite (vset_absent "targets") by (apply D; right; now left). rewrite vset_absent.
  - rewrite grouped_targets, <- app_assoc. unfold target_members. now rewrite map_map.
  - rewrite vget_app. rewrite (D "targets_by_type") by (right; right; now left). reflexivity.
Qed.

(** The second pass over a dict of targets leaves out an empty one. *)
Definition target_members' (ts : list target) : vdict :=
  ([("targets", VList (map VDict (map (fun kv => [kv]) (event_targets ts))))] ++ match event_types ts with [] => [] | _ => [("targets_by_type", VDict (event_types ts))] end)%list.
Lemma fixed_targets n ts : Forall good_target ts ->
  adds num (S n) ("targets", VList (map VDict (map (fun kv => [kv]) (event_targets ts)))) [("targets", VList (map VDict (map (fun kv => [kv]) (event_targets ts))))] /\ fkey "targets" = "targets".
Proof.
  intros G. apply fixed_list; try reflexivity. apply Forall_map. unfold event_targets.
  apply Forall_flat_map. eapply Forall_impl; [|apply target_groups_good, G]. intros [[name key] l] (K & K2 & P). cbn [group_targets].
  apply Forall_map. eapply Forall_impl; [|exact P]. intros s Ps. apply stable_intro; [|reflexivity]. constructor; [|constructor]. now apply fixed_text.
Qed.
Lemma types_stable n ts : Forall good_target ts -> stable num (S n) (event_types ts).
Proof.
  intros G. apply stable_intro.
  - unfold event_types. apply Forall_flat_map. eapply Forall_impl; [|apply target_groups_good, G]. intros [[name key] l] (K & K2 & P). cbn [group_type].
    destruct l as [|s l]; [constructor|]. constructor; [|constructor].
    unfold text_key in K2. rewrite !andb_true_iff in K2. destruct K2 as (((((K2 & L) & _) & _) & _) & _).
    apply fixed_intro; [exact K2| |now apply unnest_leaf]. exact (value_strs n key (s :: l)).
  - unfold event_types, target_groups.
    destruct (targets_of t_group_id ts), (targets_of t_group_name ts), (targets_of t_resource_id ts), (targets_of t_ven_id ts), (targets_of t_party_id ts); reflexivity.
Qed.
Lemma types_again n ts : Forall good_target ts ->
  adds num (S n) ("targets_by_type", VDict (event_types ts)) (match event_types ts with [] => [] | _ => [("targets_by_type", VDict (event_types ts))] end).
Proof.
  intros G.
  assert (U : unnest num "targets_by_type" (VDict (event_types ts)) = Ok (match event_types ts with [] => None | _ => Some (VDict (event_types ts)) end)).
  { unfold event_types, target_groups.
    destruct (targets_of t_group_id ts), (targets_of t_group_name ts), (targets_of t_resource_id ts), (targets_of t_ven_id ts), (targets_of t_party_id ts); reflexivity. }
  pose proof (adds_general num (S n) "targets_by_type" (VDict (event_types ts)) (VDict (event_types ts)) _ eq_refl eq_refl (value_stable num (S n) _ _ (types_stable n ts G)) U) as A.
  destruct (event_types ts); exact A.
Qed.

(** An event: read once, and read twice. *)
Definition event_steps (e : event) : list (xml * vdict) :=
  [(descriptor_xml (e_descriptor e), [("event_descriptor", VDict (steps_payload (descriptor_steps (e_descriptor e))))]);
   (active_period_xml (e_active_period e), [("active_period", VDict (steps_payload (period_steps (e_active_period e))))]);
   (node "eiEventSignals" (map signal_xml (e_signals e)), [("event_signals", VList (map VDict (received (e_signals e))))])].
Lemma event_steps_good n e : good_event num e -> Forall (good_step (S (S (S (S (S (S n))))))) (event_steps e).
Proof.
  intros (D & A & N & S & _). constructor; [|constructor; [|constructor; [|constructor]]].
  - apply (step_dict num _ _ "event_descriptor"); try reflexivity; [apply descriptor_compact|now apply descriptor_arrives].
  - now apply step_period.
  - now apply step_signals.
Qed.
Definition event_once (e : event) : vdict := (steps_payload (event_steps e) ++ match e_targets e with Some ts => target_members ts | None => [] end)%list.
Definition event_twice (e : event) : vdict := (steps_payload (event_steps e) ++ match e_targets e with Some ts => target_members' ts | None => [] end)%list.
Definition ei_event_xml (e : event) : xml := node "eiEvent" (map fst (event_steps e) ++ opt event_target_xml (e_targets e))%list.

Lemma event_first n e : good_event num e -> reads num (S (S (S (S (S (S (S n))))))) (ei_event_xml e) (event_once e).
Proof.
  intros G. pose proof (event_steps_good n e G) as F. destruct G as (_ & _ & _ & _ & T & _).
  set (steps := (map (fun s => ((xml_name (fst s), to_val (fst s)), snd s)) (event_steps e)
                 ++ match e_targets e with Some ts => [(("eiTarget", to_val (event_target_xml ts)), target_members ts)] | None => [] end)%list).
  exists (map fst steps). split.
  - unfold ei_event_xml. rewrite to_val_node by discriminate. f_equal. rewrite push_distinct.
    + unfold steps. destruct (e_targets e); reflexivity.
    + apply nodupb_spec. destruct (e_targets e); reflexivity.
  - assert (E : event_once e = concat (map snd steps)) by (unfold event_once, steps; destruct (e_targets e); reflexivity).
    rewrite E. apply run.
    + unfold steps. apply Forall_app; split.
      * apply Forall_map. eapply Forall_impl; [|exact F]. intros x Gx. exact (proj1 Gx).
      * destruct (e_targets e) as [ts|]; constructor; [now apply adds_target|constructor].
    + unfold steps. destruct (e_targets e); reflexivity.
Qed.
Lemma event_second n e : good_event num e -> nz (S (S (S (S (S (S (S n))))))) (event_once e) = Ok (event_twice e) /\ stable num (S (S (S (S (S (S (S n))))))) (event_twice e).
Proof.
  intros G. pose proof (event_steps_good n e G) as F. destruct G as (_ & _ & _ & _ & T & _).
  assert (F' : Forall (fun kv => adds num (S (S (S (S (S (S n)))))) kv [kv] /\ fkey (fst kv) = fst kv) (steps_payload (event_steps e))).
  { apply Forall_flat_map. eapply Forall_impl; [|exact F]. intros x Gx. exact (proj2 Gx). }
  split.
  - set (steps := (map (fun kv => (kv, [kv])) (steps_payload (event_steps e))
                   ++ match e_targets e with
                      | Some ts => [(("targets", VList (map VDict (map (fun kv => [kv]) (event_targets ts)))), [("targets", VList (map VDict (map (fun kv => [kv]) (event_targets ts))))]);
                                    (("targets_by_type", VDict (event_types ts)), match event_types ts with [] => [] | _ => [("targets_by_type", VDict (event_types ts))] end)]
                      | None => [] end)%list).
    assert (E1 : event_once e = map fst steps) by (unfold event_once, steps, target_members; destruct (e_targets e); reflexivity).
    assert (E2 : event_twice e = concat (map snd steps)).
    { unfold event_twice, steps, target_members'. destruct (e_targets e) as [ts|]; [|reflexivity]. destruct (event_types ts); reflexivity. }
    rewrite E1, E2. apply run.
    + unfold steps. apply Forall_app; split.
      * apply Forall_map. eapply Forall_impl; [|exact F']. intros kv H. exact (proj1 H).
      * destruct (e_targets e) as [ts|]; constructor; [now apply fixed_targets|]. constructor; [now apply types_again|constructor].
    + unfold steps. destruct (e_targets e) as [ts|]; [|reflexivity]. destruct (event_types ts); reflexivity.
  - apply stable_intro.
    + apply Forall_app; split; [exact F'|]. destruct (e_targets e) as [ts|]; [|constructor]. unfold target_members'.
      constructor; [now apply fixed_targets|]. destruct (event_types ts) as [|kv r] eqn:E; constructor; [|constructor].
      pose proof (types_again (S (S (S (S (S n))))) ts T) as A. rewrite E in A. split; [exact A|reflexivity].
    + unfold event_twice, target_members'. destruct (e_targets e) as [ts|]; [|reflexivity]. destruct (event_types ts); reflexivity.
Qed.

(** An event that is not a message's event. *)
Lemma adds_inner n k x p : startswith "@" k = false -> fkey k = "event" -> value_of num n (normalize_key k) x = Ok (VDict p) -> vmem "event" p = false -> compact p = true ->
  adds num n (k, x) [("event", VDict p)].
Proof.
  intros A K V M C d D. rewrite (entry_value num n d k x (VDict p)) by assumption. cbn [fst map] in D. rewrite K in *.
  assert (T : tidy num "event" (VDict p) (vset "event" (VDict p) d)
              = bind (unnest num "event" (VDict p)) (fun r => match r with Some x => Ok (vset "event" x (vset "event" (VDict p) d)) | None => Ok (vdel "event" (vset "event" (VDict p) d)) end)).
  { unfold tidy. rewrite M. reflexivity. }
  unfold finish. cbn [String.eqb Ascii.eqb Bool.eqb]. rewrite T, unnest_compact by (reflexivity || assumption). cbn [bind].
  assert (D1 : vget "event" d = None) by (apply D; now left).
  rewrite (vset_absent "event" (VDict p) d D1). now apply f_equal, vset_last.
Qed.
Definition wrapped (e : event) (p : vdict) : vdict := [("event", VDict p); ("response_required", VStr (e_response_required e))].
Lemma wrapped_run n e k x p : startswith "@" k = false -> fkey k = "event" -> value_of num n (normalize_key k) x = Ok (VDict p) -> vmem "event" p = false -> compact p = true ->
  plain (e_response_required e) -> forall k', text_key k' "response_required" = true ->
  nz (S n) [(k, x); (k', VStr (e_response_required e))] = Ok (wrapped e p).
Proof.
  intros A K V M C P k' T.
  assert (K' : fkey k' = "response_required").
  { unfold text_key, keyed in T. rewrite !andb_true_iff, !negb_true_iff, !String.eqb_eq in T. apply T. }
  apply (run num n [((k, x), [("event", VDict p)]); ((k', VStr (e_response_required e)), [("response_required", VStr (e_response_required e))])]).
  - constructor; [now apply adds_inner|]. constructor; [now apply adds_text|constructor].
  - cbn [map fst snd]. rewrite K, K'. reflexivity.
Qed.
Lemma event_once_shape e : vmem "event" (event_once e) = false /\ compact (event_once e) = true.
Proof. unfold event_once. destruct (e_targets e); split; reflexivity. Qed.
Lemma event_twice_shape e : vmem "event" (event_twice e) = false /\ compact (event_twice e) = true.
Proof. unfold event_twice, target_members'. destruct (e_targets e) as [ts|]; [destruct (event_types ts)|]; split; reflexivity. Qed.

Lemma event_xml_steps e : event_xml e = node "oadrEvent" [ei_event_xml e; leaf "oadrResponseRequired" (e_response_required e)].
Proof. reflexivity. Qed.
Lemma event_read n e : good_event num e ->
  exists its, to_val (event_xml e) = VDict its /\ nz (S (S (S (S (S (S (S (S n)))))))) its = Ok (wrapped e (event_once e)).
Proof.
  intros G. destruct (event_first n e G) as (its & E & R). destruct (event_once_shape e) as [M C].
  exists [("eiEvent", VDict its); ("oadrResponseRequired", VStr (e_response_required e))]. split.
  - rewrite event_xml_steps. rewrite to_val_node by discriminate. cbn [fold_left]. rewrite !push_absent by reflexivity.
    cbn [app xml_name ei_event_xml node leaf]. change (Elem "eiEvent" [] "" (map fst (event_steps e) ++ opt event_target_xml (e_targets e))%list) with (ei_event_xml e).
    rewrite E. cbn [to_val leaf]. rewrite text_val_one_line; [reflexivity|]. apply G.
  - apply wrapped_run; try assumption; try reflexivity; [|apply G]. cbn [value_of]. rewrite R. reflexivity.
Qed.
Lemma event_reread n e : good_event num e ->
  nz (S (S (S (S (S (S (S (S n)))))))) (wrapped e (event_once e)) = Ok (wrapped e (event_twice e)).
Proof.
  intros G. destruct (event_second n e G) as [R _]. destruct (event_twice_shape e) as [M C].
  apply wrapped_run; try assumption; try reflexivity; [|apply G]. cbn [value_of]. rewrite R. reflexivity.
Qed.

Definition with_response (e : event) (p : vdict) : vdict := (p ++ [("response_required", VStr (e_response_required e))])%list.
Lemma as_event_wrapped e p : vget "response_required" p = None -> as_event (VDict (wrapped e p)) = Ok (VDict (with_response e p)).
Proof. intros A. unfold as_event, wrapped, with_response. cbn [vget get String.eqb Ascii.eqb Bool.eqb]. now rewrite vset_absent. Qed.
Lemma no_response_required e : vget "response_required" (event_once e) = None /\ vget "response_required" (event_twice e) = None.
Proof. unfold event_once, event_twice, target_members'. destruct (e_targets e) as [ts|]; [destruct (event_types ts)|]; split; reflexivity. Qed.

Definition received_events (es : list event) : list vdict :=
  match es with
  | [e] => [with_response e (event_once e)]
  | _ => map (fun e => with_response e (event_twice e)) es
  end.
Lemma mapM_map_all {A B C} (f : B -> result C) (h : A -> B) g (l : list A) : Forall (fun a => f (h a) = Ok (g a)) l -> mapM f (map h l) = Ok (map g l).
Proof. induction 1 as [|a l H F IH]; [reflexivity|]. cbn [map mapM]. rewrite H, IH. reflexivity. Qed.
Lemma adds_events n es : Forall (good_event num) es -> es <> [] ->
  adds num (S (S (S (S (S (S (S (S n)))))))) ("oadrEvent", one_or_list (map to_val (map event_xml es))) [("events", VList (map VDict (received_events es)))].
Proof.
  intros G N d D. change (fkey (fst ("oadrEvent", one_or_list (map to_val (map event_xml es))))) with "event" in D. cbn [map fst] in D.
  assert (D1 : vget "event" d = None) by (apply D; now left).
  assert (D2 : vget "events" d = None) by (apply D; right; now left).
  destruct es as [|e [|e2 es]]; [contradiction| |].
  - inversion G as [|? ? Ge _]; subst. destruct (event_read n e Ge) as (its & E & R).
    rewrite (entry_value num _ d _ _ (VDict (wrapped e (event_once e)))); [|reflexivity|cbn [map one_or_list]; rewrite E; cbn [value_of]; now rewrite R].
    change (fkey "oadrEvent") with "event".
    assert (T : finish num "event" (VDict (wrapped e (event_once e))) d
                = bind (as_event (VDict (wrapped e (event_once e)))) (fun e' => Ok (vset "events" (VList [e']) (vdel "event" (vset "event" (VDict (wrapped e (event_once e))) d))))) by reflexivity.
    rewrite T, as_event_wrapped by apply no_response_required. cbn [bind]. rewrite (vset_absent "event"), vdel_last, vset_absent by assumption. reflexivity.
  - set (l := e :: e2 :: es) in *.
    assert (V : value_of num (S (S (S (S (S (S (S (S n)))))))) (normalize_key "oadrEvent") (one_or_list (map to_val (map event_xml l)))
                = Ok (VList (map (fun e => VDict (wrapped e (event_twice e))) l))).
    { change (one_or_list (map to_val (map event_xml l))) with (VList (map to_val (map event_xml l))). cbn [value_of]. rewrite map_map.
      erewrite (mapM_map_all _ (fun e => to_val (event_xml e)) (fun e => VDict (wrapped e (event_twice e)))); [reflexivity|].
      eapply Forall_impl; [|exact G]. intros x Gx. cbv beta. destruct (event_read n x Gx) as (its & E & R). rewrite E, R. cbn [bind]. now rewrite event_reread. }
    rewrite (entry_value num _ d "oadrEvent" _ _ eq_refl V). change (fkey "oadrEvent") with "event".
    assert (T : finish num "event" (VList (map (fun e => VDict (wrapped e (event_twice e))) l)) d
                = bind (mapM as_event (map (fun e => VDict (wrapped e (event_twice e))) l))
                       (fun es => Ok (vset "events" (VList es) (vdel "event" (vset "event" (VList (map (fun e => VDict (wrapped e (event_twice e))) l)) d))))) by reflexivity.
    rewrite T, (mapM_map_all _ _ (fun e => VDict (with_response e (event_twice e)))); [|apply Forall_forall; intros x _; apply as_event_wrapped, no_response_required].
    cbn [bind]. rewrite (vset_absent "event"), vdel_last, vset_absent by assumption. unfold received_events, l. now rewrite map_map.
Qed.

(** An empty identifier is read as None. *)
Definition id_val (s : string) : val := match s with EmptyString => VNone | _ => VStr s end.
Definition distribute_steps (r : option response) (request_id vtn_id : string) (es : list event) : list ((string * val) * vdict) :=
  (match r with Some r => [(("eiResponse", to_val (response_xml r)), [("response", VDict [("response_code", VInt (r_code r)); ("response_description", VStr (r_description r)); ("request_id", VStr (r_request_id r))])])] | None => [] end
   ++ [(("requestID", id_val request_id), [("request_id", id_val request_id)]); (("vtnID", VStr vtn_id), [("vtn_id", VStr vtn_id)])]
   ++ match es with [] => [] | _ => [(("oadrEvent", one_or_list (map to_val (map event_xml es))), [("events", VList (map VDict (received_events es)))])] end)%list.
Lemma step_response n r : plain (r_description r) -> plain (r_request_id r) ->
  good_step (S n) (response_xml r, [("response", VDict [("response_code", VInt (r_code r)); ("response_description", VStr (r_description r)); ("request_id", VStr (r_request_id r))])]).
Proof.
  intros P Q. apply step_dict; try reflexivity.
  apply (arrives_node num n "eiResponse" [(leaf "responseCode" (str_of_Z (r_code r)), [("response_code", VInt (r_code r))]);
    (leaf "responseDescription" (r_description r), [("response_description", VStr (r_description r))]); (leaf "requestID" (r_request_id r), [("request_id", VStr (r_request_id r))])]);
    [discriminate| |reflexivity].
  constructor; [now apply step_int|]. constructor; [now apply step_text|]. constructor; [now apply step_text|constructor].
Qed.
Lemma plain_id s : plain s -> id_val s = VStr s.
Proof. destruct s; [|reflexivity]. intros ((E & _) & _). now destruct E. Qed.
Lemma id_read s : s = "" \/ plain s -> text_val s = id_val s.
Proof. intros [->|P]; [reflexivity|]. rewrite text_val_one_line by apply P. symmetry. now apply plain_id. Qed.
Lemma adds_id n s : s = "" \/ plain s -> adds num n ("requestID", id_val s) [("request_id", id_val s)].
Proof.
  intros [->|P]; [exact (proj1 (step_none num n "requestID" "request_id" eq_refl eq_refl eq_refl eq_refl))|]. rewrite plain_id by exact P. now apply adds_text.
Qed.
Lemma distribute_event_parsed n r request_id vtn_id es :
  good (fun r => plain (r_description r) /\ plain (r_request_id r)) r -> request_id = "" \/ plain request_id -> plain vtn_id -> Forall (good_event num) es ->
  parse_payload num (S (S (S (S (S (S (S (S (S n))))))))) (distribute_event_xml r request_id vtn_id es) = Ok (concat (map snd (distribute_steps r request_id vtn_id es))).
Proof.
  intros R Q V G. unfold parse_payload, distribute_event_xml. rewrite message_items.
  assert (E : fold_left (fun d c => push d (xml_name c) (to_val c)) (opt response_xml r ++ [leaf "requestID" request_id; leaf "vtnID" vtn_id] ++ map event_xml es)%list [("@schemaVersion", VStr "2.0b")]
              = ("@schemaVersion", VStr "2.0b") :: map fst (distribute_steps r request_id vtn_id es)).
  { rewrite !fold_left_app.
    assert (E1 : fold_left (fun d c => push d (xml_name c) (to_val c)) [leaf "requestID" request_id; leaf "vtnID" vtn_id]
                   (fold_left (fun d c => push d (xml_name c) (to_val c)) (opt response_xml r) [("@schemaVersion", VStr "2.0b")])
                 = (("@schemaVersion", VStr "2.0b") :: match r with Some r => [("eiResponse", to_val (response_xml r))] | None => [] end ++ [("requestID", id_val request_id); ("vtnID", VStr vtn_id)])%list).
    { rewrite <- (id_read request_id Q), <- (text_val_one_line vtn_id) by apply V. destruct r; cbn [opt fold_left]; rewrite !push_absent by reflexivity; reflexivity. }
    rewrite E1. unfold distribute_steps. rewrite !map_app. destruct es as [|e es].
    - cbn [map fold_left]. rewrite app_nil_r. destruct r; reflexivity.
    - rewrite (push_all "oadrEvent" (map event_xml (e :: es))); [|apply Forall_map, Forall_forall; reflexivity|discriminate|destruct r; reflexivity].
      destruct r; reflexivity. }
  rewrite E, skip_attribute. apply run.
  - unfold distribute_steps. apply Forall_app; split.
    + destruct r as [r|]; constructor; [|constructor]. destruct R as [R1 R2]. exact (proj1 (step_response _ r R1 R2)).
    + apply Forall_app; split; [constructor; [now apply adds_id|constructor; [now apply adds_text|constructor]]|].
      destruct es as [|e es]; constructor; [|constructor]. now apply adds_events.
  - unfold distribute_steps. destruct r, es; reflexivity.
Qed.
End Messages.
