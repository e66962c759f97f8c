(** C87: the messages that this package sends pass the schema check that this
    package makes on receipt. *)
From Coq Require Import ZArith String Ascii List Bool Lia.
From Verif.Base Require Import Result Dict PyStr.
From Verif.Model Require Import Duration DateTime Text Measurements Normalize Schema SchemaTypes Xml XmlParty XmlOpt XmlText Jinja Payloads.
From Verif.Spec Require Import Instants MessageSpec XmlTextSpec WrittenSpec PayloadSpec PayloadsAnySpec AcceptedSpec.
From Verif.Proofs Require Import TextProofs XmlTextProofs WrittenProofs TemplateProofs SchemaValueProofs SchemaTreeProofs SchemaMessageProofs SchemaSentProofs.
From Verif.Properties Require Import P_Messages P_XmlText P_Written P_Templates.
Import ListNotations.
Local Open Scope string_scope.

(** A message with the payload [p] and further entries is sent: the times are
    proper, the measurements are ones that the package knows, the texts have
    no mark-up and no line breaks, and the signature, if any, is one. *)
Definition sent (foreign : xml -> bool) (sign : string -> option string) (n : string) (p further : vdict) (texts names : list string) (times : list datetime) : Prop :=
  beside n p further /\ no_measurements further /\ Forall good_time times /\ Forall (fun x => In x (map fst Measurements.measurement_namespaces)) names /\
  Forall unmarked texts /\ Forall single_line texts /\ signs_validly foreign sign.
Definition passes (uri : string -> bool) (foreign : xml -> bool) (other : val -> string) (sign : string -> option string) (n : string) (payload : vdict) : Prop :=
  exists t x, create_message other sign n payload = Ok t /\ validate_xml_schema uri foreign t = Ok x.
Definition refused (uri : string -> bool) (foreign : xml -> bool) (other : val -> string) (sign : string -> option string) (n : string) (payload : vdict) : Prop :=
  exists t, create_message other sign n payload = Ok t /\ validate_xml_schema uri foreign t = Raise XMLSyntaxError.

(** [applies] is given what OpenADR demands of the message. *)
Definition C87_statement (applies : Prop -> Prop) : Prop := forall uri foreign other sign n p m texts names times cond further,
  demands (fun t => uri t = true) false namespace n p m texts names times cond -> sent foreign sign n p further texts names times -> applies cond ->
    passes uri foreign other sign n (p ++ further)%list.
(** Whatever message is sent, it passes. *)
Definition C87_full : Prop := C87_statement (fun _ => True).

(** It does if it is as OpenADR demands. *)
Theorem C87_passes_partial : C87_statement (fun cond => cond).
Proof.
  intros uri foreign other sign n p m texts names times cond further D (B & NM & T & K & U & SL & SG) C.
  destruct (sent_checked uri foreign other sign n p m texts names times further (demands_meant _ _ _ _ _ _ _ _ _ _ D) B NM T K U SL SG) as (t & E & P & _).
  destruct P as (x & X); [|now exists t, x]. rewrite Forall_forall in T, K. now apply (demands_valid uri foreign false namespace n p m texts names times cond "" D).
Qed.
Print Assumptions C87_passes_partial.

(** If it is not, then it is sent nevertheless, and the receiver refuses it;
    but a description or unit of a measurement may be left empty. *)
Theorem C87_refused_partial : forall uri foreign other sign n p m texts names times cond further,
  demands (fun t => uri t = true) true namespace n p m texts names times cond -> sent foreign sign n p further texts names times -> ~ cond ->
    refused uri foreign other sign n (p ++ further)%list.
Proof.
  intros uri foreign other sign n p m texts names times cond further D (B & NM & T & K & U & SL & SG) C.
  destruct (sent_checked uri foreign other sign n p m texts names times further (demands_meant _ _ _ _ _ _ _ _ _ _ D) B NM T K U SL SG) as (t & E & _ & R & X).
  exists t. split; [exact E|]. apply X. intros x V. apply C. rewrite Forall_forall in T, K. apply (demands_valid uri foreign true namespace n p m texts names times cond "" D); [exact T|exact K|]. apply R. now exists x.
Qed.
Print Assumptions C87_refused_partial.

(** Every message that is meant (C84) is one of which OpenADR demands
    something. *)
Theorem C87_covers : forall uri bare n p m texts names times, meant namespace n p m texts names times <-> exists cond, demands uri bare namespace n p m texts names times cond.
Proof. intros uri bare n p m texts names times. split; [apply meant_demands|intros [cond D]; now apply demands_meant in D]. Qed.
Print Assumptions C87_covers.

(** Events: with no word about the targets, without signals, without intervals,
    with a negative duration or with a measurement that does not fit, the VEN
    refuses the whole message. *)
Definition bad_signal (s : signal) : Prop :=
  s_intervals s = [] \/ (exists i d, In i (s_intervals s) /\ i_duration i = Some d /\ (d < 0)%Z) \/ (exists m, s_measurement s = Some m /\ ~ a_measurement true m).
Definition bad_event (e : event) : Prop :=
  e_targets e = None \/ e_signals e = [] \/ (a_duration (e_active_period e) < 0)%Z \/ exists s, In s (e_signals e) /\ bad_signal s.
Theorem C87_events_refused : forall uri foreign other sign r q v es e further,
  In e es -> bad_event e ->
  sent foreign sign "oadrDistributeEvent" (distribute_event_payload namespace r q v es) further
    (some (fun r => [r_description r; r_request_id r]) (option_map shown r) ++ [or_empty q; v] ++ flat_map event_texts es) (flat_map event_names es) (flat_map event_times es) ->
    refused uri foreign other sign "oadrDistributeEvent" (distribute_event_payload namespace r q v es ++ further)%list.
Proof.
  intros uri foreign other sign r q v es e further I B S. eapply C87_refused_partial; [constructor|exact S|]. intros [_ F]. rewrite Forall_forall in F. destruct (F e I) as (_ & A & N & G & T & _).
  destruct B as [B|[B|[B|(s & J & B)]]]; [now rewrite B in T|now rewrite B in N| |].
  - destruct A as [A _]. unfold a_period in A. lia.
  - rewrite Forall_forall in G. destruct (G s J) as (G1 & G2 & _ & _ & G3 & _). destruct B as [B|[(i & d & K & E & L)|(m & E & L)]].
    + now rewrite B in G1.
    + rewrite Forall_forall in G2. destruct (G2 i K) as [P _]. rewrite E in P. cbn [if_given] in P. unfold a_period in P. lia.
    + rewrite E in G3. exact (L G3).
Qed.
Print Assumptions C87_events_refused.

(** An event for which no targets were given. *)
Definition untargeted (e : event) : event := mk_event (e_descriptor e) (e_active_period e) (e_signals e) None (e_response_required e).
Definition plain_events : list event := [sample_event "e1" [sample_signal "s1" (Some sample_measurement)]; sample_event "e2" [sample_signal "s2" None]].
Definition untargeted_events : list event := map untargeted plain_events.
Lemma unsigned_validly : signs_validly (fun _ => false) (fun _ => None).
Proof. split; [reflexivity|]. intros s. now left. Qed.
Lemma single_check t : no_char newline t = true -> single_line t.
Proof.
  unfold single_line. induction t as [|c t IH]; [intros _; exact I|]. cbn [no_char each]. intros H. apply andb_prop in H as [A B]. split; [|now apply IH]. apply negb_true_iff in A. now apply Ascii.eqb_neq.
Qed.
Lemma events_sent es : es = plain_events \/ es = untargeted_events ->
  sent (fun _ => false) (fun _ => None) "oadrDistributeEvent" (distribute_event_payload namespace (Some poll_answer) None "vtn" es) [("ven_id", VStr "ven1")]
    (some (fun r => [r_description r; r_request_id r]) (option_map shown (Some poll_answer)) ++ [or_empty None; "vtn"] ++ flat_map event_texts es) (flat_map event_names es) (flat_map event_times es).
Proof.
  intros E. split; [intros k [<-|[<-|[]]] _; reflexivity|]. split; [intros k v d [J|[]] W; injection J as <- <-; inversion W|].
  split; [destruct E as [->| ->]; repeat (constructor; [exact good_moment|]); constructor|].
  split; [destruct E as [->| ->]; (constructor; [cbn; tauto|constructor])|].
  split; [destruct E as [->| ->]; cbn; repeat (apply Forall_cons; [now apply safe_unmarked|]); apply Forall_nil|].
  split; [destruct E as [->| ->]; cbn; repeat (apply Forall_cons; [now apply single_check|]); apply Forall_nil|exact unsigned_validly].
Qed.
Theorem C87_refuted : ~ C87_full.
Proof.
  intros F. pose proof (events_sent untargeted_events (or_intror eq_refl)) as S.
  destruct (F (fun _ => true) (fun _ => false) (fun _ => "") (fun _ => None) _ _ _ _ _ _ _ _ (d_events _ _ namespace (Some poll_answer) None "vtn" untargeted_events) S I) as (t & x & C & V).
  destruct (C87_events_refused (fun _ => true) (fun _ => false) (fun _ => "") (fun _ => None) (Some poll_answer) None "vtn" untargeted_events (untargeted (sample_event "e2" [sample_signal "s2" None])) _ (or_intror (or_introl eq_refl)) (or_introl eq_refl) S)
    as (t' & C' & V'). rewrite C in C'. injection C' as <-. rewrite V in V'. discriminate.
Qed.
Print Assumptions C87_refuted.

(** Events as they should be. *)
Lemma reads_itself w : word w -> reads w w.
Proof. intros W. exists [w]. split; [|reflexivity]. exact (wd_last "" w I W). Qed.
Ltac a_word := split; [discriminate|cbn; unfold spacing; cbn; intuition discriminate].
Ltac itself := eexists; split; [apply reads_itself; a_word|cbn; tauto].
Lemma ok_sample_signal id m : if_given (a_measurement false) m -> ok_signal false (sample_signal id m).
Proof.
  intros M. split; [discriminate|]. split; [repeat constructor; cbn; unfold a_period; lia|]. split; [exists "simple"; split; [apply reads_itself; a_word|left; cbn; tauto]|]. split; [itself|]. split; [exact M|exact I].
Qed.
Lemma ok_plain_events : Forall (ok_event (fun _ => True) false) plain_events.
Proof.
  assert (E : forall id l, l <> [] -> Forall (ok_signal false) l -> ok_event (fun _ => True) false (sample_event id l)).
  { intros id l N F. split; [|split; [cbn; unfold ok_active_period, a_period; cbn; lia|split; [exact N|split; [exact F|split; [discriminate|now left]]]]].
    split; [cbn; unfold AcceptedSpec.unsigned; lia|]. split; [cbn; unfold AcceptedSpec.unsigned; lia|]. split; [exists "http://market"; split; [apply reads_itself; a_word|exact I]|itself]. }
  constructor; [|constructor; [|constructor]]; apply E; try discriminate; (constructor; [apply ok_sample_signal|constructor]); [|exact I].
  cbn [if_given]. apply am_real_power; try reflexivity; [now left|itself| |discriminate]. split; [reflexivity|cbn; tauto].
Qed.

(** The measurements of the package (enums.py:197-255): with the description
    and a unit from the tables, a scale and what belongs to powers and pulse
    counts, they fit.  Only currencyPerKW has no name that can be sent. *)
Definition wordb (w : string) : bool := negb (w =? "") && forallb (fun c => negb (existsb (Ascii.eqb c) ["009"; "010"; "013"; "032"]%char)) (list_ascii_of_string w).
Lemma wordb_word w : wordb w = true -> word w.
Proof.
  unfold wordb, word. intros H. apply andb_prop in H as [A B]. split; [intros ->; discriminate|]. clear A. induction w as [|c w IH]; [exact I|]. cbn [list_ascii_of_string forallb] in B. apply andb_prop in B as [B C].
  split; [|now apply IH]. unfold spacing. intros J. cbn [In existsb] in *. repeat (destruct J as [<-|J]; [discriminate|]). destruct J.
Qed.
Lemma reads_currency u : In u currencies -> reads_one u currency_codes.
Proof.
  intros J. assert (F : forallb (fun u => wordb u && existsb (String.eqb u) currency_codes) currencies = true) by (vm_compute; reflexivity).
  rewrite forallb_forall in F. specialize (F u J). apply andb_prop in F as [W E]. exists u. split; [now apply reads_itself, wordb_word|]. apply existsb_exists in E as (v & Iv & E). apply String.eqb_eq in E. now subst.
Qed.
Definition power_measurement (n : string) : Prop := In n ["powerApparent"; "powerReactive"; "powerReal"].
Ltac away := let H := fresh in intros H; repeat (destruct H as [H|H]; [discriminate H|]); destruct H.
Ltac member := repeat (first [left; reflexivity|right]).
Ltac itself_ := eexists; split; [apply reads_itself, wordb_word; vm_compute; reflexivity|member].
Theorem C87_measurements : forall m units, get String.eqb (m_name m) measurement_descriptions = Some (m_description m) -> get String.eqb (m_name m) acceptable_units = Some units -> In (m_unit m) units ->
  m_name m <> "currencyPerKW" -> (power_measurement (m_name m) <-> m_power m <> None) -> (m_name m = "pulseCount" <-> nonzero (m_pulse_factor m) <> None) ->
  (m_name m <> "pulseCount" -> In (m_scale m) scale_codes) -> a_measurement false m.
Proof.
  intros [n d u pf sc pw] units. cbn [m_name m_description m_unit m_power m_pulse_factor m_scale]. intros D A U NE PW PF SC.
  assert (NP : ~ power_measurement n -> pw = None) by (destruct pw; [intros H; destruct H; apply PW; discriminate|reflexivity]).
  assert (NF : n <> "pulseCount" -> nonzero pf = None) by (destruct (nonzero pf); [intros H; destruct H; apply PF; discriminate|reflexivity]).
  assert (SS : n <> "pulseCount" -> scaled (mk_measurement n d u pf sc pw)) by (intros H; split; [now apply NF|now apply SC]).
  unfold measurement_descriptions in D. cbn [get] in D.
  repeat match type of D with (if String.eqb ?a ?b then _ else _) = _ => destruct (String.eqb a b) eqn:E; [apply String.eqb_eq in E; subst n; injection D as <-; vm_compute in A; injection A as <-|clear E] end; try discriminate.
  all: try congruence.
  1-3: pose proof (reads_currency u U) as RC; clear U; apply am_currency; cbn [m_name m_description m_unit m_power]; [member|itself_|exact RC|apply SS; discriminate|apply NP; away].
  all: try (destruct U as [<-|U]; [|solve [destruct U]]).
  all: try solve [eapply am_plain; cbn [m_name m_description m_unit m_power m_pulse_factor]; [member|now left|now left|apply SS; discriminate|apply NP; away]].
  all: try solve [eapply am_power; cbn [m_name m_description m_unit m_power m_pulse_factor]; [member|now left|now left|apply SS; discriminate|apply PW; member]].
  - apply am_real_power; cbn [m_name m_description m_unit m_power m_pulse_factor]; [reflexivity|now left|itself_|apply SS; discriminate|apply PW; member].
  - apply am_pulses; cbn [m_name m_description m_unit m_power m_pulse_factor]; [reflexivity|now left|now left|now apply PF|apply NP; away].
  - apply am_temperature; cbn [m_name m_description m_unit m_power m_pulse_factor]; [reflexivity|now left| |apply SS; discriminate|apply NP; away]. destruct U as [<-|[<-|[]]]; itself_.
Qed.
Print Assumptions C87_measurements.
Example C87_example :
  demands (fun _ => True) false namespace "oadrDistributeEvent" (distribute_event_payload namespace (Some poll_answer) None "vtn" plain_events)
    (distribute_event_xml (Some (mk_response 200 "OK" "None")) "" "vtn" plain_events)
    (["OK"; "None"; ""; "vtn"] ++ flat_map event_texts plain_events) ["powerReal"] (flat_map event_times plain_events)
    (if_given ok_answer (Some poll_answer) /\ Forall (ok_event (fun _ => True) false) plain_events) /\
  (if_given ok_answer (Some poll_answer) /\ Forall (ok_event (fun _ => True) false) plain_events) /\
  sent (fun _ => false) (fun _ => None) "oadrDistributeEvent" (distribute_event_payload namespace (Some poll_answer) None "vtn" plain_events) [("ven_id", VStr "ven1")]
    (["OK"; "None"; ""; "vtn"] ++ flat_map event_texts plain_events) ["powerReal"] (flat_map event_times plain_events) /\
  (exists t, create_message (fun _ => "") (fun _ => None) "oadrDistributeEvent" (distribute_event_payload namespace (Some poll_answer) None "vtn" plain_events ++ [("ven_id", VStr "ven1")])%list = Ok t /\
    match validate_xml_schema (fun _ => true) (fun _ => false) t with Ok _ => true | Raise _ => false end = true) /\
  exists t, create_message (fun _ => "") (fun _ => None) "oadrDistributeEvent" (distribute_event_payload namespace (Some poll_answer) None "vtn" untargeted_events ++ [("ven_id", VStr "ven1")])%list = Ok t /\
    match validate_xml_schema (fun _ => true) (fun _ => false) t with Ok _ => true | Raise _ => false end = false.
Proof.
  split; [exact (d_events (fun _ => True) false namespace (Some poll_answer) None "vtn" plain_events)|]. split; [split; [unfold ok_answer, a_code; cbn; lia|exact ok_plain_events]|].
  split; [exact (events_sent plain_events (or_introl eq_refl))|]. split; (eexists; split; [vm_compute; reflexivity|vm_compute; reflexivity]).
Qed.
(** A signature: foreign to this schema, but valid by that for signatures. *)
Example C87_example_signature : exists foreign, signs_validly foreign (fun _ => Some "<Signature xmlns=""http://www.w3.org/2000/09/xmldsig#""><SignedInfo/></Signature>") /\ foreign (leaf "x" "") = false.
Proof.
  set (ds := "http://www.w3.org/2000/09/xmldsig#"). exists (fun x => xml_name x =? expanded ds "Signature"). split; [|reflexivity]. split; [intros x y S; now inversion S|].
  intros s. right. exists "<Signature xmlns=""http://www.w3.org/2000/09/xmldsig#""><SignedInfo/></Signature>", (Elem "Signature" [("xmlns", ds)] "" [Elem "SignedInfo" [] "" []]), [], "", [Elem (expanded ds "SignedInfo") [] "" []].
  split; [reflexivity|]. assert (L : lays (Elem "Signature" [("xmlns", ds)] "" [Elem "SignedInfo" [] "" []]) "<Signature xmlns=""http://www.w3.org/2000/09/xmldsig#""><SignedInfo/></Signature>").
  { apply (sh_node "Signature" "Signature" _ (" xmlns=""" ++ ds ++ """") [Elem "SignedInfo" [] "" []] "<SignedInfo/>"); [apply wr_local; now apply name_ok_name| |].
    - apply (aa_attr "xmlns" "xmlns" ds [] ""); [apply wr_local; now apply name_ok_name|vm_compute; repeat split; intuition discriminate|constructor].
    - apply (sa_cons "" _ "<SignedInfo/>" [] ""); [exact I|exact I| |now constructor]. apply (sh_empty "SignedInfo" "SignedInfo" [] "" ""); [apply wr_local; now apply name_ok_name|constructor|now left]. }
  split; [exact L|]. split; [|split; [|reflexivity]].
  - constructor; [split; [exact I|intros (b & c & E); destruct b; discriminate]|]. intros x [<-|[]]. constructor; [split; [exact I|intros (b & c & E); destruct b; discriminate]|intros x []].
  - apply (proj1 expand_means _ _ L []). reflexivity.
Qed.
