(** C88, continued: what is said in particular - events, choices, reports,
    registrations, offers and opts. *)
From Coq Require Import ZArith String Ascii List Bool Lia.
From Verif.Base Require Import Result Dict PyStr.
From Verif.Model Require Import ClientRequest VtnService.
From Verif.Spec Require Import VtnServiceSpec.
From Verif.Proofs Require Import VtnServiceProofs.
From Verif.Model Require Import DateTime Text Measurements Normalize SchemaTypes Xml XmlParty XmlOpt XmlText Jinja Payloads PreflightDict.
From Verif.Spec Require Import MessageSpec PartySpec OptSpec XmlTextSpec WrittenSpec PayloadSpec PayloadsAnySpec AcceptedSpec ExchangeSpec CheckedSpec.
From Verif.Proofs Require Import NormalizeProofs MessageProofs ArrivalProofs BlockProofs PartyProofs PartyArrival OfferProofs OptMessageProofs ClientRequestProofs PreflightDictProofs ExchangeProofs SchemaSentProofs.
From Verif.Properties Require Import P_Async P_Messages P_Party P_Opts P_XmlText P_Written P_Templates P_Schema P_Exchange.
From Verif.Model Require Import Exchange.
Import ListNotations.
Local Open Scope string_scope.
Local Open Scope Z_scope.

Section Exchange.
Context (other : val -> string) (num : numbers) (depth : nat) (uri : string -> bool) (foreign : xml -> bool) (decimals : Z -> nat -> string) (opaque : nat -> val).
Notation world_of := (vtn_world other num depth uri foreign decimals opaque).
Notation exchange_ := (exchange other num depth uri foreign decimals opaque).
Notation conveys := (conveys uri foreign).
Notation welcome := (welcome other num depth uri foreign decimals opaque).
Notation asks := (asks other num depth uri foreign decimals opaque).
Notation answers := (answers uri foreign decimals opaque).

(** ** What two of this package say to each other *)

(** Preflight makes the payload [p'] of the payload [p], whatever else is sent. *)
Definition turns (clock : nat -> datetime) (t : string) (p p' : vdict) : Prop := forall q further, same q (p ++ further)%list ->
  exists q', preflight_message clock t q = Ok q' /\ same q' (p' ++ further)%list.
Lemma turns_unchecked clock t p : t <> "oadrRegisterReport" -> t <> "oadrDistributeEvent" -> turns clock t p p.
Proof. intros N1 N2 q further S. exists q. split; [|exact S]. unfold preflight_message. apply String.eqb_neq in N1, N2. now rewrite N1, N2. Qed.
Lemma turns_at k clock t (p p' : vdict) x y : (forall q, vget k q = Some x -> preflight_message clock t q = Ok (vset k y q)) -> vget k p = Some x -> vget k p' = Some y ->
  (forall j, j <> k -> vget j p' = vget j p) -> turns clock t p p'.
Proof.
  intros C X Y K q further S. assert (A : forall j (c d : vdict), vget j (c ++ d)%list = match vget j c with Some v => Some v | None => vget j d end).
  { intros j c d. unfold vget. induction c as [|[j' w] c IH]; [reflexivity|]. cbn. now destruct (String.eqb j j'). }
  exists (vset k y q). split; [apply C; rewrite S, A, X; reflexivity|]. intros j. rewrite A. destruct (String.eqb_spec j k) as [->|N].
  - rewrite Y. unfold vget, vset. now rewrite (get_set_same String.eqb String.eqb_eq).
  - unfold vset, vget at 1. rewrite (get_set_other String.eqb String.eqb_eq) by assumption. fold (vget j q). now rewrite S, A, (K j N).
Qed.
Lemma namespace_known n s : get String.eqb n Measurements.measurement_namespaces = Some s -> namespace n = s.
Proof. intros G. unfold namespace. now rewrite G. Qed.
Lemma turns_events clock r i v es es' : Forall2 settled es es' -> Forall names_known es' -> turns clock "oadrDistributeEvent" (distribute_event_payload namespace r i v es) (distribute_event_payload namespace r i v es').
Proof.
  intros F K. apply (turns_at "events" clock _ _ _ (VList (map (event_val namespace) es)) (VList (map (event_val namespace) es'))).
  - intros q G. unfold preflight_message. cbn [String.eqb Ascii.eqb Bool.eqb item]. rewrite G. cbn [bind elements]. rewrite (events_checked namespace namespace_known clock es es' F K). reflexivity.
  - now destruct r, i.
  - now destruct r, i.
  - intros j N. unfold distribute_event_payload, vget. apply String.eqb_neq in N. destruct r, i; cbn [Payloads.given option_map app get]; rewrite ?N; reflexivity.
Qed.
Lemma turns_offers clock q os os' v : Forall2 settled_offer os os' -> turns clock "oadrRegisterReport" (register_report_payload namespace q os v) (register_report_payload namespace q os' v).
Proof.
  intros F. apply (turns_at "reports" clock _ _ _ (VList (map (offer_val namespace) os)) (VList (map (offer_val namespace) os'))).
  - intros p G. unfold preflight_message. cbn [String.eqb Ascii.eqb Bool.eqb item]. rewrite G. cbn [bind elements].
    rewrite (mapM_Forall2 _ _ (map (offer_val namespace) os')); [reflexivity|]. apply Forall2_maps. eapply Forall2_imp; [|exact F]. intros o o'. apply offer_checked, namespace_known.
  - reflexivity.
  - reflexivity.
  - intros j N. unfold register_report_payload, vget. apply String.eqb_neq in N. cbn [app get]. rewrite N. reflexivity.
Qed.

(** Nothing goes wrong around them. *)
Definition working (e : ven) (v : vtn) (vtn_name : string) : Prop :=
  trusting e /\ unhindered v /\ (signs (e_sign e) /\ signs_validly foreign (e_sign e)) /\ (signs (v_sign v) /\ signs_validly foreign (v_sign v)) /\
  c_vtn (v_config v) = SStr vtn_name.
Definition printable (l : list string) : Prop := Forall unmarked l /\ Forall single_line l.

Lemma conveys_own bare clock sign t p0 p m texts names times cond further : turns clock t p0 p -> signs sign -> signs_validly foreign sign ->
  demands (fun u => uri u = true) bare namespace t p m texts names times cond -> beside t p further -> no_measurements further ->
  Forall good_time times -> Forall (fun x => In x (map fst Measurements.measurement_namespaces)) names -> printable texts ->
  forall q, same q (p0 ++ further)%list -> conveys bare clock sign t q m cond.
Proof.
  intros C G V D B N T K (U & SL) q S. destruct (C q further S) as (q' & Q & S'). exists p, further, texts, names, times, q'. repeat split; try assumption; apply V.
Qed.
Lemma beside_none t p : beside t p [].
Proof. intros k _ _. reflexivity. Qed.
Lemma none_measured : no_measurements [].
Proof. intros k v d []. Qed.

(** The members that every answer has. *)
Definition standard (v : vtn) (vtn_name : string) (r : XmlParty.answer) (ven : string) : vdict :=
  [("response", answer_val r); ("request_id", VStr (v_id v)); ("vtn_id", VStr vtn_name); ("ven_id", VStr ven)].
Lemma standard_measured v vtn_name r ven : no_measurements (standard v vtn_name r ven).
Proof.
  intros k x d I W. unfold standard in I. cbn [In] in I. destruct I as [I|[I|[I|[I|[]]]]]; injection I as <- <-; inversion W; subst; try reflexivity; try discriminate.
  cbn [In] in *. match goal with H : _ \/ _ |- _ => destruct H as [H|[H|[H|[]]]]; injection H as <- <- end; try (match goal with H : within _ (VDict _) |- _ => inversion H; fail end).
  match goal with H : within (text _) _ |- _ => destruct (an_request_id r); inversion H end.
Qed.
Definition number_of (q : payload) (rid : option string) : Prop :=
  (match pget "request_id" q with Some r => r | None => Val SNone end) = match rid with Some r => Val (SStr r) | None => Val SNone end.
Lemma standard_same v vtn_name q given a rid ven : completed_with v q given a -> c_vtn (v_config v) = SStr vtn_name -> number_of q rid ->
  (forall x, addressed q given x -> x = Val (SStr ven)) -> same (printed decimals opaque a) (standard v vtn_name (mk_answer 200 "OK" rid) ven ++ printed decimals opaque given)%list.
Proof.
  intros (R & Q & V & (x & X & A) & K) CV N AD k. rewrite printed_get. apply AD in A. subst x. unfold standard, vget. cbn [app get]. unfold number_of in N. rewrite N in R. rewrite CV in V.
  destruct (String.eqb_spec k "response") as [->|N1]; [rewrite R; now destruct rid|]. destruct (String.eqb_spec k "request_id") as [->|N2]; [now rewrite Q|].
  destruct (String.eqb_spec k "vtn_id") as [->|N3]; [now rewrite V|]. destruct (String.eqb_spec k "ven_id") as [->|N4]; [now rewrite X|].
  rewrite K by assumption. change (get String.eqb k (printed decimals opaque given)) with (vget k (printed decimals opaque given)). now rewrite printed_get.
Qed.

(** The answer, if what the handler gives and what every answer has are
    together the payload [p]. *)
Lemma answers_own bare v vtn_name t q h t' given p0 p m texts names times cond rid ven : turns (v_clock v) t' p0 p -> signs (v_sign v) -> signs_validly foreign (v_sign v) ->
  c_vtn (v_config v) = SStr vtn_name -> number_of q rid -> (forall x, addressed q given x -> x = Val (SStr ven)) -> c_handle (v_config v) t q = Ok h -> gives h t' given -> has_lists t' given ->
  demands (fun u => uri u = true) bare namespace t' p m texts names times cond -> beside t' p (standard v vtn_name (mk_answer 200 "OK" rid) ven) ->
  Forall good_time times -> Forall (fun x => In x (map fst Measurements.measurement_namespaces)) names -> printable texts ->
  same (standard v vtn_name (mk_answer 200 "OK" rid) ven ++ printed decimals opaque given)%list (p0 ++ standard v vtn_name (mk_answer 200 "OK" rid) ven)%list ->
  answers bare v t q t' m cond.
Proof.
  intros C G SV CV N AD H GV L D B T K P E. exists h, given. split; [exact H|]. split; [exact GV|]. split; [exact L|]. intros a CW.
  eapply conveys_own; [exact C|exact G|exact SV|exact D|exact B|apply standard_measured|exact T|exact K|exact P|].
  intros k. rewrite (standard_same v vtn_name q given a rid ven CW CV N AD k). apply E.
Qed.

(** What matters of a message to the VTN. *)
Lemma welcome_alike v n t d d' text : vget "ven_id" d = vget "ven_id" d' -> vget "vtn_id" d = vget "vtn_id" d' -> welcome v n t d' text -> welcome v n t d text.
Proof.
  intros E1 E2 (I & N & F & R & A). assert (G : forall k, k = "ven_id" \/ k = "vtn_id" -> pget k (received d) = pget k (received d')).
  { intros k [->| ->]; rewrite !received_get; congruence. }
  split; [exact I|]. split; [exact N|]. unfold for_us, registered_ven in *. rewrite !G by auto. split; [exact F|]. split; [|].
  - destruct R as [R|[R|[R|(w & l & i & r & R)]]]; auto. do 3 right. now exists w, l, i, r.
  - exact A.
Qed.
Lemma from_asked q ven : pget "ven_id" q = Some (Val (SStr ven)) -> forall given, pget "ven_id" given = None -> forall x, addressed q given x -> x = Val (SStr ven).
Proof.
  intros Q given G x [(g & A & _)|[(_ & A)|[(A & _)|(A & _)]]]; [rewrite G in A; discriminate A| |rewrite Q in A; discriminate A|rewrite Q in A; discriminate A].
  rewrite Q in A. now injection A as <-.
Qed.

(** A request with nothing but what belongs to it. *)
Lemma asks_own e v vtn_name n t p0 p m texts names times (cond : Prop) d d0 q : working e v vtn_name -> turns (e_clock e) t p0 p ->
  demands (fun u => uri u = true) false namespace t p m texts names times cond -> cond ->
  Forall good_time times -> Forall (fun x => In x (map fst Measurements.measurement_namespaces)) names -> printable texts -> parse_payload num depth m = Ok d ->
  (forall text, write_message other (e_clock e) (e_sign e) t p0 = Ok text -> welcome v n t d0 text) -> vget "ven_id" d = vget "ven_id" d0 -> vget "vtn_id" d = vget "vtn_id" d0 ->
  handed n t d q -> asks (fun cond => cond) e v n t p0 d q.
Proof.
  intros (_ & U & (G & V) & _) C D DC T K P R W E1 E2 H. exists m, cond. split; [|split; [exact DC|split; [exact R|split; [exact U|split; [|exact H]]]]].
  - eapply (conveys_own false _ _ _ p0 p m texts names times cond []); try eassumption; [apply beside_none|apply none_measured|]. intros k. now rewrite app_nil_r.
  - intros text X. eapply welcome_alike; [exact E1|exact E2|]. now apply W.
Qed.
Lemma poll_parsed k v : plain v -> parse_payload num (S k) (poll_xml v) = Ok [("ven_id", VStr v)].
Proof. intros Q. apply (plain_steps_parsed num k "oadrPoll" [(leaf "venID" v, [("ven_id", VStr v)])]); [|reflexivity]. constructor; [now apply step_text|constructor]. Qed.
Lemma handed_plain n t d : t <> "oadrCreatePartyRegistration" -> handed n t d (received d).
Proof. intros N. right. split; [|reflexivity]. now intros (_ & ->). Qed.
Lemma reportable_answer d r x : vget "response" d = Some (VDict (answer_members r x)) -> an_code r = 200 -> reportable d.
Proof. intros R E c. unfold code_of. rewrite R. cbn. rewrite E. intros [= <-]. congruence. Qed.

Lemma ok_plain : plain "OK".
Proof. plain_text. Qed.
Lemma member_get k (d : vdict) : member k d = vget k d.
Proof. unfold vget. induction d as [|[k' x] d IH]; [reflexivity|]. cbn [member get]. now destruct (String.eqb k k'). Qed.
Lemma reportable_holds d r x : holds (VDict d) ["response"] (answer_arrived r x) -> an_code r = 200 -> reportable d.
Proof.
  intros (y & Y & (z & Z1 & ->) & _) E c. cbn [at_path] in Y. rewrite member_get in Y. unfold code_of. destruct (vget "response" d) as [w|]; [|discriminate]. injection Y as ->.
  destruct y as [| | | | | | | |y]; try discriminate. cbn [at_path] in Z1. rewrite member_get in Z1. destruct (vget "response_code" y) as [w|]; [|discriminate]. injection Z1 as ->. intros [= <-]. congruence.
Qed.

Ltac by_keys c := let k := fresh "k" in intros k; try unfold c; unfold vget, distribute_event_payload, response_message_payload, updated_report_payload, created_party_payload, registered_report_payload, opt_answer_payload, standard, printed, Payloads.given; cbn [option_map app get map fst snd member_val text cp_registration_id cp_ven_id cp_vtn_id cp_profiles cp_poll_freq]; repeat (match goal with |- context [String.eqb k ?s] => destruct (String.eqb_spec k s) as [E|_]; [try rewrite E; cbn [String.eqb Ascii.eqb Bool.eqb]; try reflexivity|] end); try reflexivity.

(** What the handler is given besides the message. *)
Lemma handed_get n t d q k : handed n t d q -> k <> "fingerprint" -> pget k q = option_map val_member (vget k d).
Proof.
  intros H N. rewrite <- received_get. destruct H as [(_ & _ & fp & _ & ->)|(_ & ->)]; [|reflexivity]. unfold pset, pget. rewrite (get_set_other String.eqb String.eqb_eq); [reflexivity|congruence].
Qed.

(** Request and answer together. *)
Lemma talked e v vtn_name n t p0 p m texts names times (cond : Prop) d d0 q rid h t' given ven p0' p' m' texts' names' times' (cond' : Prop) d' : working e v vtn_name ->
  turns (e_clock e) t p0 p -> turns (v_clock v) t' p0' p' ->
  demands (fun u => uri u = true) false namespace t p m texts names times cond -> cond ->
  Forall good_time times -> Forall (fun x => In x (map fst Measurements.measurement_namespaces)) names -> printable texts -> parse_payload num depth m = Ok d ->
  (forall text, write_message other (e_clock e) (e_sign e) t p0 = Ok text -> welcome v n t d0 text) -> vget "ven_id" d = vget "ven_id" d0 -> vget "vtn_id" d = vget "vtn_id" d0 ->
  handed n t d q -> vget "request_id" d = option_map VStr rid ->
  c_handle (v_config v) t q = Ok h -> gives h t' given -> (forall x, addressed q given x -> x = Val (SStr ven)) -> has_lists t' given ->
  demands (fun u => uri u = true) false namespace t' p' m' texts' names' times' cond' -> cond' ->
  Forall good_time times' -> Forall (fun x => In x (map fst Measurements.measurement_namespaces)) names' -> printable texts' -> parse_payload num depth m' = Ok d' ->
  beside t' p' (standard v vtn_name (mk_answer 200 "OK" rid) ven) ->
  same (standard v vtn_name (mk_answer 200 "OK" rid) ven ++ printed decimals opaque given)%list (p0' ++ standard v vtn_name (mk_answer 200 "OK" rid) ven)%list -> reportable d' ->
  exchange_ e v n t p0 = ([Handled t q], Ok (RMessage _ t' d')).
Proof.
  intros W TQ TA D C T K P R WE E1 E2 H RI CH GV AD L D' C' T' K' P' R' B SA RP. pose proof W as (TR & UH & _ & (SG & SV) & VN).
  eapply C88_exchange_partial with (d := d); [eapply asks_own; eassumption| |exact C'|exact R'|exact TR|exact RP].
  eapply answers_own with (rid := rid); try eassumption. unfold number_of. rewrite (handed_get _ _ _ _ "request_id" H) by discriminate. rewrite RI. now destruct rid.
Qed.
Lemma from_sender n t d q ven given : handed n t d q -> vget "ven_id" d = Some (VStr ven) -> pget "ven_id" given = None -> forall x, addressed q given x -> x = Val (SStr ven).
Proof. intros H E. apply from_asked. rewrite (handed_get _ _ _ _ "ven_id" H) by discriminate. now rewrite E. Qed.
Ltac printed_texts := split; repeat first [assumption|apply Forall_app; split]; repeat (apply Forall_cons; [first [assumption|now apply safe_unmarked|now apply single_check]|]); first [assumption|apply Forall_nil].
Ltac no_key := let x := fresh in let I := fresh in let N := fresh in intros x I N; cbn [optional_keys In] in I; repeat (destruct I as [<-|I]; [first [discriminate N|reflexivity]|]); contradiction.

(** *** Events: the VEN polls, and on_poll gives events *)
Lemma good_names_known es : Forall (good_event num) es -> Forall names_known es.
Proof.
  intros G. eapply Forall_impl; [|exact G]. intros e (_ & _ & _ & S & _). eapply Forall_impl; [|exact S]. intros s (_ & _ & _ & _ & _ & M & _). destruct (s_measurement s) as [m|]; [|exact I]. exact (proj1 M).
Qed.
Theorem C88_events : forall e v n vtn_name ven es es', working e v vtn_name -> (9 <= depth)%nat ->
  plain ven -> plain vtn_name -> plain (v_id v) -> Forall2 settled es es' -> Forall (good_event num) es' -> Forall (ok_event (fun u => uri u = true) false) es' ->
  printable ([ven; vtn_name; v_id v] ++ flat_map event_texts es') ->
  (forall text, write_message other (e_clock e) (e_sign e) "oadrPoll" (poll_payload ven) = Ok text -> welcome v n "oadrPoll" [("ven_id", VStr ven)] text) ->
  c_handle (v_config v) "oadrPoll" [("ven_id", Val (SStr ven))] = Ok (HPair "oadrDistributeEvent" (HDict [("events", Other (VList (map (event_val namespace) es)))])) ->
  exists d, exchange_ e v n "oadrPoll" (poll_payload ven) = ([Handled "oadrPoll" [("ven_id", Val (SStr ven))]], Ok (RMessage _ "oadrDistributeEvent" d)) /\
    header_arrived (Some (mk_response 200 "OK" "None")) (v_id v) vtn_name (VDict d) /\ events_arrived (is_list signal_arrived_but_measurement) es' (VDict d) /\
    (events_arrived signals_complete es' (VDict d) <-> Forall (fun e => measured_first (e_signals e)) es').
Proof.
  intros e v n vtn_name ven es es' W D PV PN PI ST G OK (U & SL) WE H. assert (ED : depth = (9 + (depth - 9))%nat) by lia. revert ED. generalize (depth - 9)%nat as k. intros k ED.
  set (r := mk_answer 200 "OK" None). assert (GH : good_header (option_map shown (Some r)) (or_empty (Some (v_id v))) vtn_name).
  { split; [cbn; split; [exact ok_plain|exact none_plain]|]. split; [now right|exact PN]. }
  destruct (distribute_payload num k _ _ _ es' GH G) as (d & P & HA & EA). rewrite <- ED in P. exists d.
  apply Forall_app in U as [U1 U2], SL as [S1 S2]. rewrite !Forall_cons_iff in U1, S1. destruct U1 as (U11 & U13 & U15 & _), S1 as (S11 & S13 & S15 & _).
  split; [|split; [exact HA|split]].
  - pose proof (handed_plain n "oadrPoll" [("ven_id", VStr ven)] ltac:(discriminate)) as HP.
    eapply talked with (d := [("ven_id", VStr ven)]) (d0 := [("ven_id", VStr ven)]) (rid := None) (ven := ven); [exact W|now apply turns_unchecked|apply (turns_events _ (Some r) (Some (v_id v)) vtn_name es es' ST), good_names_known, G|apply d_poll|exact I|apply Forall_nil|apply Forall_nil|printed_texts|rewrite ED; now apply poll_parsed|exact WE|reflexivity|reflexivity|exact HP|reflexivity
      |exact H|right; right; reflexivity|eapply from_sender; [exact HP|reflexivity|reflexivity]|split; [intros _; eexists; reflexivity|discriminate]|apply (d_events _ _ namespace (Some r) (Some (v_id v)) vtn_name es')| | | | | | | |].
    + split; [cbn; unfold ok_answer, a_code; cbn; lia|exact OK].
    + now apply good_event_times with num.
    + now apply good_event_names with num.
    + printed_texts.
    + exact P.
    + no_key.
    + by_keys r.
    + destruct HA as (_ & _ & R). cbn [option_map holds_opt] in R. now apply (reportable_holds d r (is_text "None")).
  - apply EA. eapply Forall_impl; [|exact G]. intros e0 (_ & _ & _ & S & _). now apply (received_but num).
  - rewrite EA. split; intros F; rewrite Forall_forall in *; intros e0 I0; destruct (G e0 I0) as (_ & _ & _ & S & _); apply (received_complete num _ S); now apply F.
Qed.

(** Events that are not as they should be - without targets or signals, for
    example - are lost: the handler of the poll has given them away, and the VEN
    does not get them. *)
Lemma poll_asks e v n vtn_name ven : working e v vtn_name -> (9 <= depth)%nat -> plain ven -> printable [ven] ->
  (forall text, write_message other (e_clock e) (e_sign e) "oadrPoll" (poll_payload ven) = Ok text -> welcome v n "oadrPoll" [("ven_id", VStr ven)] text) ->
  asks (fun cond => cond) e v n "oadrPoll" (poll_payload ven) [("ven_id", VStr ven)] [("ven_id", Val (SStr ven))].
Proof.
  intros W D PV P WE. assert (ED : depth = S (depth - 1)) by lia.
  eapply asks_own; [exact W|now apply turns_unchecked|apply d_poll|exact I|apply Forall_nil|apply Forall_nil|exact P|rewrite ED; now apply poll_parsed|exact WE|reflexivity|reflexivity|].
  exact (handed_plain n "oadrPoll" [("ven_id", VStr ven)] ltac:(discriminate)).
Qed.
Lemma events_answer bare e v n vtn_name ven es es' : working e v vtn_name -> Forall2 settled es es' -> Forall (good_event num) es' -> printable ([ven; vtn_name; v_id v] ++ flat_map event_texts es') ->
  c_handle (v_config v) "oadrPoll" [("ven_id", Val (SStr ven))] = Ok (HPair "oadrDistributeEvent" (HDict [("events", Other (VList (map (event_val namespace) es)))])) ->
  handed n "oadrPoll" [("ven_id", VStr ven)] [("ven_id", Val (SStr ven))] ->
  answers bare v "oadrPoll" [("ven_id", Val (SStr ven))] "oadrDistributeEvent" (distribute_event_xml (Some (mk_response 200 "OK" "None")) (v_id v) vtn_name es')
    (if_given ok_answer (Some (mk_answer 200 "OK" None)) /\ Forall (ok_event (fun u => uri u = true) bare) es').
Proof.
  intros (TR & UH & _ & (SG & SV) & VN) ST G (U & SL) H HP. apply Forall_app in U as [U1 U2], SL as [S1 S2]. rewrite !Forall_cons_iff in U1, S1. destruct U1 as (U11 & U13 & U15 & _), S1 as (S11 & S13 & S15 & _).
  eapply answers_own with (rid := None) (ven := ven); [apply (turns_events _ (Some (mk_answer 200 "OK" None)) (Some (v_id v)) vtn_name es es' ST), good_names_known, G|exact SG|exact SV|exact VN|reflexivity| |exact H|right; right; reflexivity|split; [intros _; eexists; reflexivity|discriminate]
    |apply (d_events _ _ namespace (Some (mk_answer 200 "OK" None)) (Some (v_id v)) vtn_name es')| | | | |].
  - eapply from_sender; [exact HP|reflexivity|reflexivity].
  - no_key.
  - now apply good_event_times with num.
  - now apply good_event_names with num.
  - printed_texts.
  - by_keys es.
Qed.
Theorem C88_bad_events : forall e v n vtn_name ven es es' b, working e v vtn_name -> (9 <= depth)%nat ->
  plain ven -> Forall2 settled es es' -> Forall (good_event num) es' -> In b es' -> bad_event b ->
  printable ([ven; vtn_name; v_id v] ++ flat_map event_texts es') ->
  (forall text, write_message other (e_clock e) (e_sign e) "oadrPoll" (poll_payload ven) = Ok text -> welcome v n "oadrPoll" [("ven_id", VStr ven)] text) ->
  c_handle (v_config v) "oadrPoll" [("ven_id", Val (SStr ven))] = Ok (HPair "oadrDistributeEvent" (HDict [("events", Other (VList (map (event_val namespace) es)))])) ->
  exchange_ e v n "oadrPoll" (poll_payload ven) = ([Handled "oadrPoll" [("ven_id", Val (SStr ven))]], Ok (RFailed _)).
Proof.
  intros e v n vtn_name ven es es' b W D PV ST G I B P WE H. assert (P1 : printable [ven]).
  { destruct P as [P1 P2]. split; (apply Forall_cons; [|apply Forall_nil]); [now inversion P1|now inversion P2]. }
  pose proof (handed_plain n "oadrPoll" [("ven_id", VStr ven)] ltac:(discriminate)) as HP.
  eapply C88_answer_refused; [eapply poll_asks; eassumption|eapply (events_answer true); eassumption| |apply W].
  intros [_ F]. rewrite Forall_forall in F. destruct (F b I) as (_ & A & N & GS & T & _). destruct B as [B|[B|[B|(s & J & B)]]]; [now rewrite B in T|now rewrite B in N| |].
  - destruct A as [A _]. unfold a_period in A. lia.
  - rewrite Forall_forall in GS. destruct (GS s J) as (G1 & G2 & _ & _ & G3 & _). destruct B as [B|[(i & d & K & E & L)|(m & E & L)]].
    + now rewrite B in G1.
    + rewrite Forall_forall in G2. destruct (G2 i K) as [P0 _]. rewrite E in P0. cbn [if_given] in P0. unfold a_period in P0. lia.
    + rewrite E in G3. exact (L G3).
Qed.

(** So are events that make no sense: that do not last as long as their signals
    do, or are not levels where they should be. *)
Theorem C88_senseless_events : forall e v n vtn_name ven es b, working e v vtn_name -> (9 <= depth)%nat ->
  plain ven -> printable [ven] -> In b es -> senseless b ->
  (forall text, write_message other (e_clock e) (e_sign e) "oadrPoll" (poll_payload ven) = Ok text -> welcome v n "oadrPoll" [("ven_id", VStr ven)] text) ->
  c_handle (v_config v) "oadrPoll" [("ven_id", Val (SStr ven))] = Ok (HPair "oadrDistributeEvent" (HDict [("events", Other (VList (map (event_val namespace) es)))])) ->
  exchange_ e v n "oadrPoll" (poll_payload ven) = ([Handled "oadrPoll" [("ven_id", Val (SStr ven))]], Ok (RFailed _)).
Proof.
  intros e v n vtn_name ven es b W D PV P I S WE H.
  eapply C88_answer_unsendable; [eapply poll_asks; eassumption|exact H|right; right; reflexivity|split; [intros _; eexists; reflexivity|discriminate]| |apply W].
  intros a (_ & _ & _ & _ & K). unfold preflight_message. cbn [String.eqb Ascii.eqb Bool.eqb item]. rewrite printed_get, K by discriminate. cbn [pget get String.eqb Ascii.eqb Bool.eqb option_map member_val bind elements].
  destruct (events_refused namespace (v_clock v) es b I S) as (x & X). rewrite X. now exists x.
Qed.

(** *** Nothing: the VEN polls, and there is nothing for it *)
Theorem C88_nothing : forall e v n vtn_name ven h, working e v vtn_name -> (9 <= depth)%nat -> plain ven -> printable [ven] ->
  (forall text, write_message other (e_clock e) (e_sign e) "oadrPoll" (poll_payload ven) = Ok text -> welcome v n "oadrPoll" [("ven_id", VStr ven)] text) ->
  c_handle (v_config v) "oadrPoll" [("ven_id", Val (SStr ven))] = Ok h -> gives h "oadrResponse" [] ->
  exists d, exchange_ e v n "oadrPoll" (poll_payload ven) = ([Handled "oadrPoll" [("ven_id", Val (SStr ven))]], Ok (RMessage _ "oadrResponse" d)) /\
    holds (VDict d) ["response"] (answer_arrived (mk_answer 200 "OK" None) (text_or_none None)) /\ holds (VDict d) ["ven_id"] (is_text ven).
Proof.
  intros e v n vtn_name ven h W D PV P WE H GV. assert (ED : depth = (9 + (depth - 9))%nat) by lia. revert ED. generalize (depth - 9)%nat as k. intros k ED.
  assert (GA : good_answer (mk_answer 200 "OK" None)) by (split; [exact ok_plain|exact I]).
  destruct (C67_short_partial num (7 + k)%nat _ ven "q" "q" true None GA PV ltac:(plain_text) ltac:(plain_text)) as ((d' & P' & A1 & A2) & _). cbn [Nat.add] in P', ED. rewrite <- ED in P'.
  exists d'. split; [|now split]. pose proof (handed_plain n "oadrPoll" [("ven_id", VStr ven)] ltac:(discriminate)) as HP. pose proof P as (U & SL). rewrite !Forall_cons_iff in U, SL. destruct U as (U1 & _), SL as (S1 & _).
  eapply talked with (d := [("ven_id", VStr ven)]) (d0 := [("ven_id", VStr ven)]) (rid := None) (ven := ven); [exact W|now apply turns_unchecked|now apply turns_unchecked|apply d_poll|exact I|apply Forall_nil|apply Forall_nil|exact P|rewrite ED; now apply poll_parsed|exact WE|reflexivity|reflexivity|exact HP|reflexivity
    |exact H|exact GV|eapply from_sender; [exact HP|reflexivity|reflexivity]|split; discriminate|apply (d_response _ _ namespace (mk_answer 200 "OK" None) (Some ven))| | | | | | | |].
  - unfold ok_answer, a_code; cbn; lia.
  - apply Forall_nil.
  - apply Forall_nil.
  - printed_texts.
  - exact P'.
  - no_key.
  - by_keys ven.
  - now apply (reportable_holds d' _ _ A1).
Qed.

(** *** Choices: the VEN answers events, and the VTN has nothing to add *)
Theorem C88_choices : forall e v n vtn_name ven r rs h, working e v vtn_name -> (9 <= depth)%nat ->
  plain ven -> plain (an_description r) -> Forall good_response rs -> ok_answer r -> Forall ok_event_response rs ->
  printable ([an_description r; ven] ++ flat_map event_response_texts rs) ->
  (forall text, write_message other (e_clock e) (e_sign e) "oadrCreatedEvent" (created_event_payload r rs ven) = Ok text -> welcome v n "oadrCreatedEvent" [("ven_id", VStr ven)] text) ->
  gives h "oadrResponse" [] ->
  exists d, (holds (VDict d) ["ven_id"] (is_text ven) /\ match rs with [] => at_path ["event_responses"] (VDict d) = Some VNone | _ => holds (VDict d) ["event_responses"] (is_list response_arrived rs) end) /\
    (c_handle (v_config v) "oadrCreatedEvent" (received d) = Ok h ->
     exists d', exchange_ e v n "oadrCreatedEvent" (created_event_payload r rs ven) = ([Handled "oadrCreatedEvent" (received d)], Ok (RMessage _ "oadrResponse" d')) /\
       holds (VDict d') ["response"] (answer_arrived (mk_answer 200 "OK" None) (text_or_none None)) /\ holds (VDict d') ["ven_id"] (is_text ven)).
Proof.
  intros e v n vtn_name ven r rs h W D PV PD G OA OK (U & SL) WE GV. assert (ED : depth = (9 + (depth - 9))%nat) by lia. revert ED. generalize (depth - 9)%nat as k. intros k ED.
  set (d := steps_payload (created_steps (an_code r) (an_description r) rs ven)). assert (Pd : parse_payload num depth (created_event_xml (an_code r) (an_description r) rs ven) = Ok d) by (rewrite ED; now apply created_event_parsed).
  exists d. split.
  - destruct (C16_responses_arrive num (4 + k)%nat (an_code r) (an_description r) rs ven PD PV G) as (x & X & A1 & _ & _ & A2). cbn [Nat.add] in X, ED. rewrite ED in Pd. rewrite Pd in X. injection X as <-. now split.
  - intros H. assert (GA : good_answer (mk_answer 200 "OK" None)) by (split; [exact ok_plain|exact I]).
    destruct (C67_short_partial num (7 + k)%nat _ ven "q" "q" true None GA PV ltac:(plain_text) ltac:(plain_text)) as ((d' & P' & A1 & A2) & _). cbn [Nat.add] in P', ED. rewrite <- ED in P'.
    rewrite !Forall_app, !Forall_cons_iff in U, SL. destruct U as ((U1 & U2 & _) & U3), SL as ((S1 & S2 & _) & S3).
    exists d'. split; [|now split]. pose proof (handed_plain n "oadrCreatedEvent" d ltac:(discriminate)) as HP.
    eapply talked with (d := d) (d0 := [("ven_id", VStr ven)]) (rid := None) (ven := ven); [exact W|now apply turns_unchecked|now apply turns_unchecked|apply d_created_event|exact (conj OA OK)|apply Forall_nil|apply Forall_nil|printed_texts|exact Pd|exact WE|reflexivity|reflexivity|exact HP|reflexivity
      |exact H|exact GV|eapply from_sender; [exact HP|reflexivity|reflexivity]|split; discriminate|apply (d_response _ _ namespace (mk_answer 200 "OK" None) (Some ven))| | | | | | | |].
    + unfold ok_answer, a_code; cbn; lia.
    + constructor.
    + constructor.
    + printed_texts.
    + exact P'.
    + no_key.
    + by_keys rs.
    + now apply (reportable_holds d' _ _ A1).
Qed.

(** *** Reports: the VEN sends what it measured *)
Theorem C88_reports : forall e v n vtn_name ven q rs h, working e v vtn_name -> (9 <= depth)%nat ->
  plain ven -> plain q -> Forall (good_report num) rs -> Forall ok_report rs ->
  printable ([q] ++ flat_map report_texts rs ++ [ven]) ->
  (forall text, write_message other (e_clock e) (e_sign e) "oadrUpdateReport" (update_report_payload q rs (Some ven)) = Ok text -> welcome v n "oadrUpdateReport" [("ven_id", VStr ven)] text) ->
  gives h "oadrUpdatedReport" [] ->
  exists d, (holds (VDict d) ["request_id"] (is_text q) /\ holds (VDict d) ["ven_id"] (is_text ven) /\ reports_arrived rs (VDict d)) /\
    (c_handle (v_config v) "oadrUpdateReport" (received d) = Ok h ->
     exists d', exchange_ e v n "oadrUpdateReport" (update_report_payload q rs (Some ven)) = ([Handled "oadrUpdateReport" (received d)], Ok (RMessage _ "oadrUpdatedReport" d')) /\
       holds (VDict d') ["response"] (answer_arrived (mk_answer 200 "OK" (Some q)) (is_text q)) /\ holds (VDict d') ["ven_id"] (is_text ven) /\ at_path ["cancel_report"] (VDict d') = None).
Proof.
  intros e v n vtn_name ven q rs h W D PV PQ G OK (U & SL) WE GV. assert (ED : depth = (9 + (depth - 9))%nat) by lia. revert ED. generalize (depth - 9)%nat as k. intros k ED.
  set (d := concat (map snd (update_steps q rs (Some ven)))). assert (Pd : parse_payload num depth (update_report_xml q rs (Some ven)) = Ok d) by (rewrite ED; now apply update_report_parsed).
  exists d. split.
  - destruct (C17_floats_arrive_partial num (3 + k)%nat q rs (Some ven) PQ PV G) as (x & X & A). cbn [Nat.add] in X, ED. rewrite ED in Pd. rewrite Pd in X. injection X as <-. exact A.
  - intros H. set (r := mk_answer 200 "OK" (Some q)). assert (GA : good_answer r) by (split; [exact ok_plain|exact PQ]).
    pose proof (updated_report_parsed num (7 + k)%nat r None (Some ven) GA I PV) as P'. cbn [Nat.add] in P', ED. rewrite <- ED in P'.
    rewrite !Forall_app, !Forall_cons_iff in U, SL. destruct U as ((U1 & _) & U2 & U3 & _), SL as ((S1 & _) & S2 & S3 & _).
    exists (steps_payload (updated_steps r None (Some ven))). split; [|split; [eexists; split; [reflexivity|]; apply answer_arrived_members; reflexivity|split; [eexists; split; reflexivity|reflexivity]]]. pose proof (handed_plain n "oadrUpdateReport" d ltac:(discriminate)) as HP.
    eapply talked with (d := d) (d0 := [("ven_id", VStr ven)]) (rid := Some q) (ven := ven); [exact W|now apply turns_unchecked|now apply turns_unchecked|apply d_reports|exact OK|now apply good_report_times with num|apply Forall_nil|printed_texts|exact Pd|exact WE|now destruct rs|now destruct rs|exact HP|reflexivity
      |exact H|exact GV|eapply from_sender; [exact HP|now destruct rs|reflexivity]|split; discriminate|apply (d_updated_report _ _ namespace r None (Some ven))| | | | | | | |].
    + split; [unfold ok_answer, a_code; cbn; lia|exact I].
    + apply Forall_nil.
    + apply Forall_nil.
    + printed_texts.
    + exact P'.
    + no_key.
    + by_keys r.
    + now apply (reportable_answer _ r (tested (Some q))).
Qed.

(** *** Registration: the VEN gets its name from the VTN *)
Theorem C88_registration : forall e v n vtn_name q p ven g ps f fp, working e v vtn_name -> (9 <= depth)%nat ->
  plain q -> good_party p -> ok_party p -> plain vtn_name -> plain ven -> ven <> "" -> plain g -> Forall good_profile ps -> good_duration f ->
  (n_secure n = true -> n_cert n = Ok fp) ->
  let c := mk_created_party (Some g) (Some ven) vtn_name ps (Some f) in ok_created_party c ->
  printable ([q] ++ party_texts p ++ created_party_texts c) ->
  (forall text, write_message other (e_clock e) (e_sign e) "oadrCreatePartyRegistration" (create_party_payload q p) = Ok text ->
     welcome v n "oadrCreatePartyRegistration" (match pt_ven_id p with Some w => [("ven_id", VStr w)] | None => [] end) text) ->
  exists d q', (holds (VDict d) ["request_id"] (is_text q) /\ party_arrived_but_address p (VDict d)) /\ handed n "oadrCreatePartyRegistration" d q' /\
    (c_handle (v_config v) "oadrCreatePartyRegistration" q' = Ok (HPair "oadrCreatedPartyRegistration" (HDict
       [("profiles", Other (VList (map profile_val ps))); ("ven_id", Val (SStr ven)); ("registration_id", Val (SStr g)); ("requested_oadr_poll_freq", Other (VDur f))])) ->
     exists d', exchange_ e v n "oadrCreatePartyRegistration" (create_party_payload q p) = ([Handled "oadrCreatePartyRegistration" q'], Ok (RMessage _ "oadrCreatedPartyRegistration" d')) /\
       holds (VDict d') ["response"] (answer_arrived (mk_answer 200 "OK" (Some q)) (is_text q)) /\ created_party_arrived c (VDict d')).
Proof.
  intros e v n vtn_name q p ven g ps f fp W D PQ G OK PN PV NE PG GP GF FP c OC (U & SL) WE. assert (ED : depth = (9 + (depth - 9))%nat) by lia. revert ED. generalize (depth - 9)%nat as k. intros k ED.
  set (d := steps_payload (party_steps q p)). assert (Pd : parse_payload num depth (create_party_xml q p) = Ok d) by (rewrite ED; now apply create_party_parsed).
  assert (GI : vget "ven_id" d = vget "ven_id" (match pt_ven_id p with Some w => [("ven_id", VStr w)] | None => [] end)) by (unfold d, party_steps; destruct (pt_registration_id p), (pt_ven_id p); reflexivity).
  assert (GT : vget "vtn_id" d = vget "vtn_id" (match pt_ven_id p with Some w => [("ven_id", VStr w)] | None => [] end)) by (unfold d, party_steps; destruct (pt_registration_id p), (pt_ven_id p); reflexivity).
  exists d. assert (HQ : exists q', handed n "oadrCreatePartyRegistration" d q').
  { unfold handed. destruct (n_secure n) eqn:NS; [eexists; left; split; [reflexivity|]; split; [reflexivity|]; exists fp; split; [now apply FP|reflexivity]|].
    eexists. right. split; [|reflexivity]. intros (N & _). discriminate N. }
  destruct HQ as (q' & HP). exists q'. split; [|split; [exact HP|]].
  - destruct (C64_request_partial num (4 + k)%nat q p PQ G) as (x & X & A & B & _). cbn [Nat.add] in X, ED. rewrite ED in Pd. rewrite Pd in X. injection X as <-. now split.
  - intros H. set (r := mk_answer 200 "OK" (Some q)). assert (GA : good_answer r) by (split; [exact ok_plain|exact PQ]). assert (GC : good_created_party c) by (split; [exact PG|]; split; [exact PV|]; split; [exact PN|]; split; [exact GP|exact GF]).
    destruct (C64_answer_partial num (4 + k)%nat r q c GA eq_refl GC) as (d' & P' & A1 & A2). cbn [Nat.add] in P', ED. rewrite <- ED in P'.
    rewrite !Forall_app, !Forall_cons_iff in U, SL. destruct U as ((U1 & _) & U2 & U3), SL as ((S1 & _) & S2 & S3).
    exists d'. split; [|now split].
    eapply talked with (d := d) (rid := Some q) (ven := ven); [exact W|now apply turns_unchecked|now apply turns_unchecked|apply d_create_party|exact OK|apply Forall_nil|apply Forall_nil|printed_texts|exact Pd|exact WE|exact GI|exact GT|exact HP|reflexivity
      |exact H|right; right; reflexivity| |split; discriminate|apply (d_created_party _ _ namespace r c)| | | | | | | |].
    + assert (TV : mtruthy (Val (SStr ven)) = true) by (destruct ven; [congruence|reflexivity]).
      intros x A. destruct A as [(y & [= <-] & _ & A)|[(A & _)|[(_ & y & [= <-] & A & _)|(_ & A & _)]]]; [exact A| |rewrite TV in A; discriminate A|discriminate A].
      specialize (A _ eq_refl). rewrite TV in A. discriminate A.
    + split; [unfold ok_answer, a_code; cbn; lia|exact OC].
    + apply Forall_nil.
    + apply Forall_nil.
    + printed_texts.
    + exact P'.
    + no_key.
    + by_keys c.
    + now apply (reportable_holds d' _ _ A1).
Qed.

(** *** Offers: the VEN tells what it can report, the VTN asks for some *)
Theorem C88_offers : forall e v n vtn_name ven q os os' rs, working e v vtn_name -> (9 <= depth)%nat ->
  plain ven -> plain q -> Forall2 settled_offer os os' -> Forall good_offer os' -> Forall (ok_offer (fun u => uri u = true) false) os' -> Forall good_report_request rs -> Forall ok_request rs ->
  printable ([q] ++ flat_map offer_texts os' ++ [ven] ++ flat_map request_texts rs) ->
  (forall text, write_message other (e_clock e) (e_sign e) "oadrRegisterReport" (register_report_payload namespace q os (Some ven)) = Ok text -> welcome v n "oadrRegisterReport" [("ven_id", VStr ven)] text) ->
  exists d, (holds (VDict d) ["request_id"] (is_text q) /\ holds (VDict d) ["ven_id"] (is_text ven) /\ holds_many (VDict d) ["reports"] (offer_arrived description_arrived_but_measurement) os') /\
    (c_handle (v_config v) "oadrRegisterReport" (received d) = Ok (HPair "oadrRegisteredReport" (HDict [("report_requests", Other (VList (map report_request_val rs)))])) ->
     exists d', exchange_ e v n "oadrRegisterReport" (register_report_payload namespace q os (Some ven)) = ([Handled "oadrRegisterReport" (received d)], Ok (RMessage _ "oadrRegisteredReport" d')) /\
       holds (VDict d') ["response"] (answer_arrived (mk_answer 200 "OK" (Some q)) (is_text q)) /\ holds (VDict d') ["ven_id"] (is_text ven) /\ holds_many (VDict d') ["report_requests"] report_request_arrived rs).
Proof.
  intros e v n vtn_name ven q os os' rs W D PV PQ ST G OK GR OR (U & SL) WE. assert (ED : depth = (9 + (depth - 9))%nat) by lia. revert ED. generalize (depth - 9)%nat as k. intros k ED.
  assert (G' : Forall good_offer' os') by (eapply Forall_impl; [|exact G]; intros o; apply good_offer_is).
  set (d := blocks_payload (register_report_blocks q os' (Some ven))). assert (Pd : parse_payload num depth (register_report_xml q os' (Some ven)) = Ok d) by (rewrite ED; now apply register_report_parsed).
  exists d. split.
  - destruct (C65_all_but_measurements_partial num (4 + k)%nat q os' (Some ven) PQ G PV) as (x & X & A). cbn [Nat.add] in X, ED. rewrite ED in Pd. rewrite Pd in X. injection X as <-. exact A.
  - intros H. set (r := mk_answer 200 "OK" (Some q)). assert (GA : good_answer r) by (split; [exact ok_plain|exact PQ]).
    destruct (C66_requests_arrive num (3 + k)%nat r q rs GA eq_refl GR) as (CR & _). destruct (CR (Some ven) PV) as (d' & P' & A1 & A2 & A3). cbn [Nat.add] in P', ED. rewrite <- ED in P'.
    rewrite !Forall_app, !Forall_cons_iff in U, SL. destruct U as ((U1 & _) & U2 & (U3 & _) & U4), SL as ((S1 & _) & S2 & (S3 & _) & S4).
    exists d'. split; [|now repeat split]. pose proof (handed_plain n "oadrRegisterReport" d ltac:(discriminate)) as HP.
    eapply talked with (d := d) (d0 := [("ven_id", VStr ven)]) (rid := Some q) (ven := ven); [exact W|apply (turns_offers _ q os os' (Some ven) ST)|now apply turns_unchecked|apply d_register_report|exact OK| |now apply good_offer_names|printed_texts|exact Pd|exact WE|now destruct os'|now destruct os'|exact HP|now destruct os'
      |exact H|right; right; reflexivity|eapply from_sender; [exact HP|now destruct os'|reflexivity]|split; discriminate|apply (d_registered_report _ _ namespace r rs (Some ven))| | | | | | | |].
    + rewrite Forall_map. eapply Forall_impl; [|exact G]. intros o GO. apply GO.
    + split; [unfold ok_answer, a_code; cbn; lia|exact OR].
    + now apply good_request_times.
    + apply Forall_nil.
    + printed_texts.
    + exact P'.
    + no_key.
    + by_keys r.
    + now apply (reportable_holds d' _ _ A1).
Qed.

(** Offers that make no sense are not made: the VEN is told so, and nothing is
    sent. *)
Theorem C88_senseless_offers : forall e v n ven q os o d m, In o os -> In d (of_descriptions o) -> rd_measurement d = Some m -> senseless_measurement m ->
  exists x, exchange_ e v n "oadrRegisterReport" (register_report_payload namespace q os ven) = ([], Raise x).
Proof.
  intros e v n ven q os o d m I J E S. destruct (offer_refused namespace o d m J E S) as (x & X).
  destruct (mapM_raises preflight_report (map (offer_val namespace) os)) as (y & Y); [exists (offer_val namespace o); split; [now apply in_map|now exists x]|].
  exists y. unfold exchange, write_message, preflight_message. cbn [String.eqb Ascii.eqb Bool.eqb item register_report_payload app vget get bind elements]. now rewrite Y.
Qed.

(** *** Opts: the VEN opts in or out, the VTN confirms *)
Theorem C88_opts : forall e v n vtn_name ven q o i, working e v vtn_name -> (9 <= depth)%nat ->
  plain ven -> plain q -> good_opt o -> ok_opt (fun u => uri u = true) o -> plain i ->
  printable ([q; ven] ++ opt_texts o ++ [i]) ->
  (forall text, write_message other (e_clock e) (e_sign e) "oadrCreateOpt" (create_opt_payload q ven o) = Ok text -> welcome v n "oadrCreateOpt" [("ven_id", VStr ven)] text) ->
  exists d, (opt_arrived_but_lists q ven o (VDict d) /\ opt_targets_arrived o (VDict d)) /\
    (c_handle (v_config v) "oadrCreateOpt" (received d) = Ok (HPair "oadrCreatedOpt" (HDict [("opt_id", Val (SStr i))])) ->
     exists d', exchange_ e v n "oadrCreateOpt" (create_opt_payload q ven o) = ([Handled "oadrCreateOpt" (received d)], Ok (RMessage _ "oadrCreatedOpt" d')) /\
       holds (VDict d') ["response"] (answer_arrived (mk_answer 200 "OK" (Some q)) (is_text q)) /\ holds (VDict d') ["opt_id"] (is_text i)).
Proof.
  intros e v n vtn_name ven q o i W D PV PQ G OK PI (U & SL) WE. assert (L : (length (om_targets o) <= 1)%nat) by apply OK. assert (ED : depth = (9 + (depth - 9))%nat) by lia. revert ED. generalize (depth - 9)%nat as k. intros k ED.
  set (d := blocks_payload (opt_blocks q ven o)). assert (Pd : parse_payload num depth (create_opt_xml q ven o) = Ok d) by (rewrite ED; now apply (create_opt_parsed num (3 + k)%nat)).
  assert (E : vget "ven_id" d = Some (VStr ven) /\ vget "vtn_id" d = None /\ vget "request_id" d = Some (VStr q)).
  { unfold d, opt_blocks, before_targets, head_steps, middle_steps, availability_blocks, device_steps, targets_block, target_members. destruct (om_market o), (om_availability o), (om_event o), (om_targets o) as [|? [|? ?]], (om_mrid o); repeat split; reflexivity. }
  destruct E as (E1 & E2 & E3). exists d. split.
  - destruct (C69_opt_partial num (3 + k)%nat q ven o PQ PV G L) as (x & X & A & B & _). cbn [Nat.add] in X, ED. rewrite ED in Pd. rewrite Pd in X. injection X as <-. now split.
  - intros H. set (r := mk_answer 200 "OK" (Some q)). assert (GA : good_answer r) by (split; [exact ok_plain|exact PQ]).
    destruct (C69_other_messages_partial num (7 + k)%nat "oadrCreatedOpt" r q i ven GA eq_refl PI PV) as ((d' & P' & A1 & A2) & _). cbn [Nat.add] in P', ED. rewrite <- ED in P'.
    rewrite !Forall_app, !Forall_cons_iff in U, SL. destruct U as ((U1 & U2 & _) & U3 & (U4 & _)), SL as ((S1 & S2 & _) & S3 & (S4 & _)).
    exists d'. split; [|now split]. pose proof (handed_plain n "oadrCreateOpt" d ltac:(discriminate)) as HP.
    eapply talked with (d := d) (d0 := [("ven_id", VStr ven)]) (rid := Some q) (ven := ven); [exact W|now apply turns_unchecked|now apply turns_unchecked|apply d_create_opt|exact OK| |apply Forall_nil|printed_texts|exact Pd|exact WE|exact E1|exact E2|exact HP|exact E3
      |exact H|right; right; reflexivity|eapply from_sender; [exact HP|exact E1|reflexivity]|split; discriminate|apply (d_created_opt _ _ namespace r i)| | | | | | | |].
    + destruct G as (_ & _ & _ & _ & C & T & _). apply Forall_cons; [exact T|]. destruct (om_availability o) as [cs|]; [|apply Forall_nil].
      apply Forall_forall. intros t I0. apply in_map_iff in I0 as (c & <- & I0). cbn [good] in C. rewrite Forall_forall in C. now destruct (C c I0).
    + unfold ok_answer, a_code; cbn; lia.
    + apply Forall_nil.
    + apply Forall_nil.
    + printed_texts.
    + exact P'.
    + no_key.
    + by_keys r.
    + now apply (reportable_holds d' _ _ A1).
Qed.
End Exchange.
Print Assumptions C88_events.
Print Assumptions C88_bad_events.
Print Assumptions C88_senseless_events.
Print Assumptions C88_nothing.
Print Assumptions C88_choices.
Print Assumptions C88_reports.
Print Assumptions C88_registration.
Print Assumptions C88_offers.
Print Assumptions C88_senseless_offers.
Print Assumptions C88_opts.

(** ** Two of them *)
Definition some_numbers : numbers := mk_numbers (fun _ => true) (fun _ => Ok 0) (fun _ => "").
Definition some_ven : ven := mk_ven (fun _ => moment) (fun _ => None) false (fun _ => Ok tt) client_hooks_initial (fun _ _ => Ok tt).
Definition some_vtn (kinds : list string) (handle : string -> payload -> result hresult) : vtn :=
  mk_vtn (mk_cfg (SStr "vtn") (Some (fun _ _ => Ok (Some [("registration_id", SStr "reg1")]))) None false kinds handle)
    (fun _ => moment) (fun _ => None) (fun _ => Ok "") (fun _ => Ok tt) (fun _ => Ok tt) (fun _ => Ok tt) "id1" "error".
Definition no_tls : connection := mk_connection false (Ok None).
Notation with_some f := (f (fun _ : val => "") some_numbers 9%nat (fun _ : string => true) (fun _ : xml => false) (fun (_ : Z) (_ : nat) => "") (fun _ : nat => VNone)) (only parsing).

Lemma some_working kinds handle : working (fun _ => false) some_ven (some_vtn kinds handle) "vtn".
Proof.
  split; [split; [exists []; exact initial_registered|discriminate]|]. split; [intros h; reflexivity|].
  assert (S : signs (fun _ : string => None) /\ signs_validly (fun _ => false) (fun _ => None)) by (split; [intros t; exists []; now left|exact unsigned_validly]).
  split; [exact S|]. split; [exact S|reflexivity].
Qed.
Lemma some_welcome kinds handle t d text : In t kinds -> t <> "oadrResponse" -> vget "vtn_id" d = None -> (forall v, vget "ven_id" d = Some v -> val_member v <> Val SNone) ->
  with_some P_Exchange.welcome (some_vtn kinds handle) no_tls t d text.
Proof.
  intros I N V E. split; [exact I|]. split; [exact N|]. split; [left; rewrite received_get; now rewrite V|]. split; [|discriminate].
  destruct (vget "ven_id" d) as [x|] eqn:X; [|right; left; rewrite received_get; now rewrite X].
  do 3 right. eexists _, _, _, _. rewrite received_get, X. repeat split; try reflexivity. discriminate.
Qed.

Definition on_poll (es : list event) (t : string) (q : payload) : result hresult := Ok (HPair "oadrDistributeEvent" (HDict [("events", Other (VList (map (event_val namespace) es)))])).
(** Events as they are sent, and as the handler gave them: with another
    duration, other current values, and no proper answer wanted. *)
Definition timed_signal (id : string) (m : option measurement) (c : option number) : signal :=
  mk_signal [mk_interval (Some moment) (Some 3600000000) (NInt 1); mk_interval None (Some 3600000000) (NInt 2)] "SIMPLE" "level" id m c.
Definition timed_events : list event := [sample_event "e1" [timed_signal "s1" (Some sample_measurement) (Some (NInt 0))]; sample_event "e2" [timed_signal "s2" None (Some (NInt 0))]].
Definition rough_events : list event :=
  [with_duration 5 (sample_event "e1" [timed_signal "s1" (Some sample_measurement) (Some (NInt 2))]); with_response "sometimes" (sample_event "e2" [timed_signal "s2" None None])].
Definition untargeted_timed : list event := map untargeted timed_events.
Lemma timed_lasts id m c : lasting 7200000000 (timed_signal id m c).
Proof. exists [3600000000; 3600000000]. split; reflexivity. Qed.
Lemma timed_levels id m c : levels (timed_signal id m c).
Proof. intros _. unfold a_level. repeat (apply Forall_cons; [right; cbn; tauto|]). apply Forall_nil. Qed.
Lemma timed_settled id m c status : status <> "ACTIVE" -> (forall f, c <> Some (NFloat f)) -> settled_signal status (timed_signal id m c) (timed_signal id m (Some (NInt 0))).
Proof.
  intros N F. repeat split. destruct c as [[z|f]|]; [destruct (Z.eqb_spec z 0) as [->|NZ]|now destruct (F f)|].
  - left. split; [reflexivity|]. intros _. exists (NInt 0). split; [reflexivity|now left].
  - right. split; [reflexivity|]. split; [reflexivity|]. split; [exact N|]. intros (n & [= <-] & [[= ->]|[[=]|[=]]]). congruence.
  - right. split; [reflexivity|]. split; [reflexivity|]. split; [exact N|]. now intros (n & [=] & _).
Qed.
Ltac settles := split; [reflexivity|]; split; [reflexivity|]; split; [apply Forall_cons; [apply timed_levels|apply Forall_nil]|]; split; [constructor; [apply timed_settled; [discriminate|intros f; discriminate]|constructor]|];
  split; [exists 7200000000; split; [apply Forall_cons; [apply timed_lasts|apply Forall_nil]|split; [discriminate|repeat split]]|].
Lemma rough_settled : Forall2 settled rough_events timed_events.
Proof.
  constructor; [|constructor; [|constructor]]; settles; [left; split; [now left|reflexivity]|]. right. split; [|reflexivity]. intros [[=]|[[=]|[]]].
Qed.
Lemma untargeted_settled : Forall2 settled untargeted_timed untargeted_timed.
Proof. constructor; [|constructor; [|constructor]]; settles; (left; split; [now left|reflexivity]). Qed.
Lemma good_timed_events : Forall (good_event some_numbers) timed_events.
Proof.
  assert (G : forall id m, plain id -> good good_measurement m -> good_signal some_numbers (timed_signal id m (Some (NInt 0)))).
  { intros id m P M. split; [discriminate|]. split; [|split; [plain_text|split; [plain_text|split; [exact P|split; [exact M|exact I]]]]].
    apply Forall_cons; [|apply Forall_cons; [|apply Forall_nil]]; (split; [first [exact good_moment | exact I]|split; [cbn; repeat split; lia|exact I]]). }
  apply Forall_cons; [|apply Forall_cons; [|apply Forall_nil]]; (apply good_sample_event; [plain_text|discriminate|]); (apply Forall_cons; [apply G; [plain_text|]|apply Forall_nil]); [exact good_sample_measurement|exact I].
Qed.
Lemma ok_timed_events : Forall (ok_event (fun _ => true = true) false) timed_events.
Proof.
  assert (E : forall id l, l <> [] -> Forall (ok_signal false) l -> ok_event (fun _ => true = true) false (sample_event id l)).
  { intros id l N F. split; [|split; [cbn; unfold ok_active_period, a_period; cbn; lia|split; [exact N|split; [exact F|split; [discriminate|now left]]]]].
    split; [cbn; unfold AcceptedSpec.unsigned; lia|]. split; [cbn; unfold AcceptedSpec.unsigned; lia|]. split; [exists "http://market"; split; [apply reads_itself; a_word|reflexivity]|itself]. }
  assert (S : forall id m, if_given (a_measurement false) m -> ok_signal false (timed_signal id m (Some (NInt 0)))).
  { intros id m M. split; [discriminate|]. split; [apply Forall_cons; [|apply Forall_cons; [|apply Forall_nil]]; (split; [cbn; unfold a_period; lia|cbn; auto])|]. split; [exists "SIMPLE"; split; [apply reads_itself; a_word|left; cbn; tauto]|]. split; [itself|]. split; [exact M|exact I]. }
  apply Forall_cons; [|apply Forall_cons; [|apply Forall_nil]]; apply E; try discriminate; (apply Forall_cons; [apply S|apply Forall_nil]); [|exact I].
  cbn [if_given]. apply am_real_power; try reflexivity; [now left|itself| |discriminate]. split; [reflexivity|cbn; tauto].
Qed.
Lemma good_untargeted_timed : Forall (good_event some_numbers) untargeted_timed.
Proof.
  unfold untargeted_timed. apply Forall_map. eapply Forall_impl; [|exact good_timed_events]. intros e (A & B & C & D & _ & E). now repeat (split; [assumption|]).
Qed.
Ltac printed_literals := split; cbn; repeat (apply Forall_cons; [first [now apply safe_unmarked|now apply single_check]|]); apply Forall_nil.
Ltac welcomed := intros; apply some_welcome; [cbn; tauto|discriminate|reflexivity|let H := fresh in intros ? H; vm_compute in H; first [discriminate H|injection H as <-; discriminate]].

Lemma lost_events : with_some exchange some_ven (some_vtn ["oadrPoll"] (on_poll untargeted_timed)) no_tls "oadrPoll" (poll_payload "ven1") = ([Handled "oadrPoll" [("ven_id", Val (SStr "ven1"))]], Ok (RFailed _)).
Proof.
  apply (with_some C88_bad_events) with (vtn_name := "vtn") (es := untargeted_timed) (es' := untargeted_timed) (b := untargeted (sample_event "e2" [timed_signal "s2" None (Some (NInt 0))])).
  - apply some_working.
  - lia.
  - plain_text.
  - exact untargeted_settled.
  - exact good_untargeted_timed.
  - cbn; tauto.
  - now left.
  - printed_literals.
  - welcomed.
  - reflexivity.
Qed.
Theorem C88_refuted : ~ (forall other num depth uri foreign decimals opaque, C88_full other num depth uri foreign decimals opaque).
Proof.
  intros F. set (v := some_vtn ["oadrPoll"] (on_poll untargeted_timed)).
  assert (GH : good_header (option_map shown (Some (mk_answer 200 "OK" None))) (or_empty (Some (v_id v))) "vtn").
  { split; [cbn; split; [exact ok_plain|exact none_plain]|]. split; [right; plain_text|plain_text]. }
  destruct (distribute_payload some_numbers 0%nat _ _ _ untargeted_timed GH good_untargeted_timed) as (d & P & HA & _).
  assert (A : with_some P_Exchange.asks (fun cond => cond) some_ven v no_tls "oadrPoll" (poll_payload "ven1") [("ven_id", VStr "ven1")] [("ven_id", Val (SStr "ven1"))]).
  { apply (with_some poll_asks) with (vtn_name := "vtn"); [apply some_working|lia|plain_text|printed_literals|welcomed]. }
  assert (X : with_some exchange some_ven v no_tls "oadrPoll" (poll_payload "ven1") = ([Handled "oadrPoll" [("ven_id", Val (SStr "ven1"))]], Ok (RMessage _ "oadrDistributeEvent" d))).
  { eapply (with_some F) with (d := [("ven_id", VStr "ven1")]); [|eapply (events_answer some_numbers _ _ _ _ false some_ven v no_tls "vtn" "ven1" untargeted_timed untargeted_timed)|exact I|exact P| |].
    - destruct A as (m & cond & A1 & _ & A2). exists m, cond. split; [exact A1|]. split; [exact I|exact A2].
    - apply some_working.
    - exact untargeted_settled.
    - exact good_untargeted_timed.
    - printed_literals.
    - reflexivity.
    - exact (handed_plain no_tls "oadrPoll" [("ven_id", VStr "ven1")] ltac:(discriminate)).
    - apply (some_working ["oadrPoll"] (on_poll untargeted_timed)).
    - destruct HA as (_ & _ & R). cbn [option_map holds_opt] in R. now apply (reportable_holds d (mk_answer 200 "OK" None) (is_text "None")). }
  unfold v in X. rewrite lost_events in X. discriminate X.
Qed.
Print Assumptions C88_refuted.

Example C88_example_events : exists d, with_some exchange some_ven (some_vtn ["oadrPoll"] (on_poll rough_events)) no_tls "oadrPoll" (poll_payload "ven1") =
    ([Handled "oadrPoll" [("ven_id", Val (SStr "ven1"))]], Ok (RMessage _ "oadrDistributeEvent" d)) /\ events_arrived signals_complete timed_events (VDict d).
Proof.
  destruct (C88_events (fun _ => "") some_numbers 9%nat (fun _ => true) (fun _ => false) (fun _ _ => "") (fun _ => VNone) some_ven (some_vtn ["oadrPoll"] (on_poll rough_events)) no_tls "vtn" "ven1" rough_events timed_events) as (d & E & _ & _ & C).
  - apply some_working.
  - lia.
  - plain_text.
  - plain_text.
  - plain_text.
  - exact rough_settled.
  - exact good_timed_events.
  - exact ok_timed_events.
  - printed_literals.
  - welcomed.
  - reflexivity.
  - exists d. split; [exact E|]. apply C. apply Forall_cons; [|apply Forall_cons; [|apply Forall_nil]]; intros a x b y c H; destruct a as [|? [|? ?]]; try discriminate H; destruct b; discriminate H.
Qed.

Example C88_example_senseless_events : with_some exchange some_ven (some_vtn ["oadrPoll"] (on_poll (timed_events ++ [sample_event "e3" [sample_signal "s3" None]]))) no_tls "oadrPoll" (poll_payload "ven1") =
  ([Handled "oadrPoll" [("ven_id", Val (SStr "ven1"))]], Ok (RFailed _)).
Proof.
  apply (with_some C88_senseless_events) with (vtn_name := "vtn") (es := (timed_events ++ [sample_event "e3" [sample_signal "s3" None]])%list) (b := sample_event "e3" [sample_signal "s3" None]).
  - apply some_working.
  - lia.
  - plain_text.
  - printed_literals.
  - cbn; tauto.
  - left. exists (sample_signal "s3" None), (mk_interval None None (NInt 2)). repeat split; cbn; tauto.
  - welcomed.
  - reflexivity.
Qed.

(** The others. *)
Notation with_these f := (f (fun _ : val => "") some_numbers 9%nat (fun _ : string => true) (fun _ : xml => false) (fun (_ : Z) (_ : nat) => "") (fun _ : nat => VNone) some_ven) (only parsing).
Ltac itself_own := eexists; split; [apply reads_itself; a_word|left; cbn; tauto].
Ltac conversed F := destruct F as (? & _ & G); [apply some_working|lia|..|destruct (G eq_refl) as (? & E & _); do 2 eexists; exact E].
Definition some_responses : list event_response := [mk_event_response 200 (Some "OK") "r1" "e1" 0 "optIn"; mk_event_response 200 None "r2" "e2" 4 "optOut"].
Example C88_example_choices : exists q d, with_these exchange (some_vtn ["oadrCreatedEvent"] (fun _ _ => Ok HNone)) no_tls "oadrCreatedEvent" (created_event_payload (mk_answer 200 "OK" None) some_responses "ven1") =
  ([Handled "oadrCreatedEvent" q], Ok (RMessage _ "oadrResponse" d)).
Proof.
  conversed ((with_these C88_choices) (some_vtn ["oadrCreatedEvent"] (fun _ _ => Ok HNone)) no_tls "vtn" "ven1" (mk_answer 200 "OK" None) some_responses HNone).
  - plain_text.
  - plain_text.
  - constructor; [|constructor; [|constructor]]; repeat split; try exact I; plain_text.
  - unfold ok_answer, a_code; cbn; lia.
  - constructor; [|constructor; [|constructor]]; (split; [unfold a_code; cbn; lia|]; split; [unfold AcceptedSpec.unsigned; cbn; lia|itself]).
  - printed_literals.
  - welcomed.
  - now left.
Qed.
Definition some_reports : list report :=
  [mk_report (Some moment) [mk_report_interval moment (Some 1000000) (mk_payload "r1" None (Some (NInt 1)) (NInt 5) (Some "x-good")); mk_report_interval moment None (mk_payload "r2" None None (NInt (-7)) None)]
     "req" "spec" (Some "TELEMETRY_USAGE") moment;
   mk_report None [] "req2" "spec2" None moment].
Example C88_example_reports : exists q d, with_these exchange (some_vtn ["oadrUpdateReport"] (fun _ _ => Ok (HPair "oadrUpdatedReport" HNoPayload))) no_tls "oadrUpdateReport" (update_report_payload "q1" some_reports (Some "ven1")) =
  ([Handled "oadrUpdateReport" q], Ok (RMessage _ "oadrUpdatedReport" d)).
Proof.
  conversed ((with_these C88_reports) (some_vtn ["oadrUpdateReport"] (fun _ _ => Ok (HPair "oadrUpdatedReport" HNoPayload))) no_tls "vtn" "ven1" "q1" some_reports (HPair "oadrUpdatedReport" HNoPayload)).
  - plain_text.
  - plain_text.
  - constructor; [|constructor; [|constructor]]; repeat split; try exact good_moment; try exact I; try plain_text; try (right; plain_text).
    + constructor; [|constructor; [|constructor]]; repeat split; try exact good_moment; try exact I; try plain_text; try lia.
    + constructor.
  - constructor; [|constructor; [|constructor]]; (split; [|cbn; try exact I]).
    + constructor; [|constructor; [|constructor]]; repeat split; try exact I; cbn; unfold a_period; try lia. exists "x-good". split; [apply reads_itself; a_word|]. right. exists "g"%char, "ood". split; [reflexivity|]. unfold spacing. cbn. intuition discriminate.
    + intros _. itself_own.
    + constructor.
  - printed_literals.
  - welcomed.
  - right. left. now split.
Qed.
Definition some_profiles : list profile := [mk_profile "2.0b" ["simpleHttp"; "xmpp"]; mk_profile "2.0a" ["simpleHttp"]].
Definition on_registration (t : string) (q : payload) : result hresult := Ok (HPair "oadrCreatedPartyRegistration" (HDict
  [("profiles", Other (VList (map profile_val some_profiles))); ("ven_id", Val (SStr "ven1")); ("registration_id", Val (SStr "reg1")); ("requested_oadr_poll_freq", Other (VDur 10000000))])).
Lemma handed_fingerprint n d q f : n_secure n = true -> n_cert n = Ok (Some f) -> handed n "oadrCreatePartyRegistration" d q -> pget "fingerprint" q = Some (Val (SStr f)).
Proof.
  intros S C [(_ & _ & fp & F & ->)|(N & _)]; [|exfalso; apply N; now split]. rewrite C in F. injection F as <-. unfold pget, pset. now rewrite (get_set_same String.eqb String.eqb_eq).
Qed.
Example C88_example_registration : exists q d, with_these exchange (some_vtn ["oadrCreatePartyRegistration"] on_registration) (mk_connection true (Ok (Some "fp"))) "oadrCreatePartyRegistration" (create_party_payload "q1" (sample_party (Some "http://ven.example"))) =
  ([Handled "oadrCreatePartyRegistration" q], Ok (RMessage _ "oadrCreatedPartyRegistration" d)) /\ pget "fingerprint" q = Some (Val (SStr "fp")).
Proof.
  destruct ((with_these C88_registration) (some_vtn ["oadrCreatePartyRegistration"] on_registration) (mk_connection true (Ok (Some "fp"))) "vtn" "q1" (sample_party (Some "http://ven.example")) "ven1" "reg1" some_profiles 10000000 (Some "fp")) as (? & q & _ & H & G);
    [apply some_working|lia|..|destruct (G eq_refl) as (? & E & _); do 2 eexists; split; [exact E|]].
  - plain_text.
  - apply good_sample_party. cbn [good]. plain_text.
  - split; itself.
  - plain_text.
  - plain_text.
  - discriminate.
  - plain_text.
  - repeat (apply Forall_cons; [split; [plain_text|repeat (apply Forall_cons; [plain_text|]); apply Forall_nil]|]). apply Forall_nil.
  - repeat split; cbn; lia.
  - reflexivity.
  - split; [discriminate|]. split; [|cbn; unfold a_period; lia]. repeat (apply Forall_cons; [split; [itself|split; [discriminate|repeat (apply Forall_cons; [itself|]); apply Forall_nil]]|]). apply Forall_nil.
  - printed_literals.
  - intros text _. split; [now left|]. split; [discriminate|]. split; [now left|]. split; [now right; left|]. intros ven _ N. discriminate N.
  - exact (handed_fingerprint (mk_connection true (Ok (Some "fp"))) _ _ "fp" eq_refl eq_refl H).
Qed.

Definition some_offers : list offer :=
  [mk_offer (Some 3600000000) [mk_description "r1" None None "reading" (Some sample_measurement) "Mean" None (Some (mk_sampling 1000000 60000000 false)); mk_description "r2" None None "usage" None "x-notApplicable" None None]
     "spec_1" "METADATA_TELEMETRY_USAGE" moment].
Definition some_requests : list report_request :=
  [mk_report_request "rq_1" "spec_1" 60000000 (Some 900000000) (Some (moment, 7200000000)) [("r1", "Mean"); ("r2", "x-notApplicable")]].
Definition on_offers (t : string) (q : payload) : result hresult := Ok (HPair "oadrRegisteredReport" (HDict [("report_requests", Other (VList (map report_request_val some_requests)))])).
(** As they were given: without the prefix, and with small letters. *)
Definition rough_offers : list offer :=
  [mk_offer (Some 3600000000) [mk_description "r1" None None "reading" (Some (mk_measurement "powerReal" "realPower" "W" None "k" (Some (mk_power 50 230 true)))) "Mean" None (Some (mk_sampling 1000000 60000000 false)); mk_description "r2" None None "usage" None "x-notApplicable" None None]
     "spec_1" "TELEMETRY_USAGE" moment].
Lemma rough_offers_settled : Forall2 settled_offer rough_offers some_offers.
Proof.
  constructor; [|constructor]. split; [reflexivity|]. split; [reflexivity|]. split; [reflexivity|]. split; [reflexivity|]. constructor; [|constructor; [|constructor]]; do 7 (split; [reflexivity|]); [|exact I].
  do 4 (split; [reflexivity|]). split; [|split; [discriminate|cbn; tauto]]. left. exists "RealPower", ["W"]. repeat split. now left.
Qed.
Example C88_example_senseless_offers : exists x, with_these exchange (some_vtn ["oadrRegisterReport"] on_offers) no_tls "oadrRegisterReport"
  (register_report_payload namespace "q1" [sample_offer [sample_description "r1" (Some (mk_measurement "powerReal" "RealPower" "W" None "k" None))]] (Some "ven1")) = ([], Raise x).
Proof.
  eapply (with_these C88_senseless_offers); [now left|now left|reflexivity|]. right. right. left. split; reflexivity.
Qed.
Example C88_example_offers : exists q d, with_these exchange (some_vtn ["oadrRegisterReport"] on_offers) no_tls "oadrRegisterReport" (register_report_payload namespace "q1" rough_offers (Some "ven1")) =
  ([Handled "oadrRegisterReport" q], Ok (RMessage _ "oadrRegisteredReport" d)).
Proof.
  conversed ((with_these C88_offers) (some_vtn ["oadrRegisterReport"] on_offers) no_tls "vtn" "ven1" "q1" rough_offers some_offers some_requests).
  - plain_text.
  - plain_text.
  - exact rough_offers_settled.
  - apply Forall_cons; [|apply Forall_nil]. split; [cbn; repeat split; lia|]. split; [|split; [plain_text|split; [plain_text|exact good_moment]]].
    apply Forall_cons; [|apply Forall_cons; [|apply Forall_nil]]; (split; [plain_text|]; split; [exact I|]; split; [exact I|]; split; [plain_text|]; split; [first [exact I|exact good_sample_measurement]|]; split; [plain_text|]; split; [exact I|]; cbn; first [exact I|repeat split; cbn; lia]).
  - apply Forall_cons; [|apply Forall_nil]. split; [cbn; unfold a_period; lia|]. split; [|itself_own].
    apply Forall_cons; [|apply Forall_cons; [|apply Forall_nil]]; (split; [itself_own|]; split; [|split; [itself_own|split; [exact I|cbn; try exact I; split; unfold a_period; cbn; lia]]]); cbn [if_given rd_measurement]; [|exact I].
    apply am_real_power; try reflexivity; [now left|itself| |discriminate]. split; [reflexivity|cbn; tauto].
  - apply Forall_cons; [|apply Forall_nil]. split; [plain_text|]. split; [plain_text|]. split; [repeat split; cbn; lia|]. split; [cbn; repeat split; lia|].
    split; [split; [exact good_moment|cbn; repeat split; lia]|]. repeat (apply Forall_cons; [split; plain_text|]). apply Forall_nil.
  - apply Forall_cons; [|apply Forall_nil]. split; [unfold a_period; cbn; lia|]. split; [eexists; split; [reflexivity|unfold a_period; lia]|]. split; [cbn; unfold a_period; lia|]. split; [discriminate|].
    repeat (apply Forall_cons; [itself_own|]). apply Forall_nil.
  - printed_literals.
  - welcomed.
Qed.
Example C88_example_opts : exists q d, with_these exchange (some_vtn ["oadrCreateOpt"] (fun _ _ => Ok (HPair "oadrCreatedOpt" (HDict [("opt_id", Val (SStr "opt_1"))])))) no_tls "oadrCreateOpt" (create_opt_payload "q1" "ven1" (sample_opt None [dev "dev_1"])) =
  ([Handled "oadrCreateOpt" q], Ok (RMessage _ "oadrCreatedOpt" d)).
Proof.
  conversed ((with_these C88_opts) (some_vtn ["oadrCreateOpt"] (fun _ _ => Ok (HPair "oadrCreatedOpt" (HDict [("opt_id", Val (SStr "opt_1"))])))) no_tls "vtn" "ven1" "q1" (sample_opt None [dev "dev_1"]) "opt_1").
  - plain_text.
  - plain_text.
  - exact (proj1 C69_example).
  - split; [itself|]. split; [itself_own|]. split; [exists "http://market"; split; [apply reads_itself; a_word|reflexivity]|]. split; [exact I|]. split; [cbn; unfold AcceptedSpec.unsigned; lia|cbn; lia].
  - plain_text.
  - printed_literals.
  - welcomed.
Qed.
