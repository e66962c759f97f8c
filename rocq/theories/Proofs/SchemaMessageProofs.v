(** Which messages are valid by the schema. *)
From Coq Require Import ZArith String Ascii List Bool Lia Setoid.
From Verif.Base Require Import Result Dict PyStr.
From Verif.Model Require Import Duration DateTime Text Measurements XmlText Schema SchemaTypes Xml XmlParty XmlOpt.
From Verif.Spec Require Import MessageSpec WrittenSpec PayloadSpec AcceptedSpec.
From Verif.Proofs Require Import SchemaValueProofs QualifyProofs SchemaTreeProofs.
Import ListNotations.
Local Open Scope string_scope.

Lemma given_true {A} (o : option A) : if_given (fun _ => True) o <-> True.
Proof. destruct o; cbn; tauto. Qed.
Lemma forall_true {A} (l : list A) : Forall (fun _ => True) l <-> True.
Proof. split; [auto|]. intros _. apply Forall_forall. auto. Qed.
Lemma given_iff {A} (P Q : A -> Prop) o : (forall a, P a <-> Q a) -> (if_given P o <-> if_given Q o).
Proof. intros H. destruct o; cbn; [apply H|tauto]. Qed.
Lemma given_nonempty (P : string -> Prop) o : if_given P (nonempty_text o) <-> if_given (fun t => t <> "" -> P t) o.
Proof. destruct o as [[|c t]|]; cbn; [|split; [auto|]; intros H; now apply H|tauto]. split; [intros _ H; now destruct H|auto]. Qed.
Lemma given_nonzero o : if_given a_period (nonzero o) <-> if_given a_period o.
Proof. destruct o as [[|p|p]|]; cbn; unfold a_period; try tauto; lia. Qed.

Section Messages.
Variable uri : string -> bool.
Variable foreign : xml -> bool.
Variable lenient : bool.
Notation V := (V uri foreign lenient).
Notation has := (has uri foreign lenient).
Notation isuri := (fun t => uri t = true).
Notation bare := lenient.

Lemma text_true t : fits uri Schema.Text t = true <-> True. Proof. cbn. tauto. Qed.
Lemma time_true t : good_time t -> (fits uri xcal_DateTimeType (show_time t) = true <-> True). Proof. intros G. split; [auto|]. intros _. now apply time_fits. Qed.
Lemma bool_true b : fits uri Boolean (show_bool b) = true <-> True. Proof. split; [auto|]. intros _. apply bool_fits. Qed.

Local Opaque SchemaTreeProofs.V fits.
(** [Xml.opt f o] and [map f l] at the end of a list. *)
Lemma has_end pu ps cs P : has pu ps (cs ++ [])%list P -> has pu ps cs P. Proof. now rewrite app_nil_r. Qed.
Ltac time_ok := solve [assumption | match goal with G : forall t, In t _ -> good_time t |- good_time _ => apply G end; repeat match goal with H : _ = Some _ |- _ => rewrite H; clear H end; cbn; rewrite ?in_app_iff; cbn; rewrite ?in_app_iff; cbn; tauto].
Ltac value := first
  [ apply text_true | apply bool_true | apply code_spec | apply unsigned_spec | apply percentage_spec | apply float_spec | apply duration_spec | (apply time_true; time_ok)
  | apply uri_spec | apply own_spec | apply text_one_spec | apply token_spec ].
Ltac leaf_ok := match goal with |- SchemaTreeProofs.V _ _ _ _ (leaf _ _) _ <-> _ => (eapply iff_trans; [apply V_leaf|value]) || apply V_fixed end.
Ltac step tac :=
  cbn [app];
  match goal with
  | |- SchemaTreeProofs.has _ _ _ _ [] [] _ => apply has_nil
  | |- SchemaTreeProofs.has _ _ _ _ _ (Xml.opt _ _) _ => apply has_end
  | |- SchemaTreeProofs.has _ _ _ _ _ (map _ _) _ => apply has_end
  | |- SchemaTreeProofs.has _ _ _ _ (SchemaTypes.one _ _ :: _) (Xml.opt _ _ ++ _) _ => eapply has_must; [intros ?; reflexivity|reflexivity|intros ? ?; cbv beta; first [leaf_ok|tac]|]
  | |- SchemaTreeProofs.has _ _ _ _ (SchemaTypes.opt _ _ :: _) (Xml.opt _ _ ++ _) _ => eapply has_opt; [intros ?; reflexivity|reflexivity|intros ? ?; cbv beta; first [leaf_ok|tac]|]
  | |- SchemaTreeProofs.has _ _ _ _ (SchemaTypes.many _ _ :: _) (Xml.opt _ _ ++ _) _ => eapply has_many_opt; [intros ?; reflexivity|reflexivity|intros ? ?; cbv beta; first [leaf_ok|tac]|]
  | |- SchemaTreeProofs.has _ _ _ _ (SchemaTypes.many _ _ :: _) (map _ _ ++ _) _ => eapply has_many; [intros ?; reflexivity|reflexivity|intros ? ?; cbv beta; first [leaf_ok|tac]|]
  | |- SchemaTreeProofs.has _ _ _ _ (SchemaTypes.some _ _ :: _) (map _ _ ++ _) _ => eapply has_some; [intros ?; reflexivity|reflexivity|intros ? ?; cbv beta; first [leaf_ok|tac]|]
  | |- SchemaTreeProofs.has _ _ _ _ (SchemaTypes.one _ _ :: _) (_ :: _) _ => eapply has_one; [reflexivity|reflexivity|first [leaf_ok|tac]|]
  | |- SchemaTreeProofs.has _ _ _ _ (SchemaTypes.opt _ _ :: _) (_ :: _) _ => eapply has_opt_one; [reflexivity|reflexivity|first [leaf_ok|tac]|]
  | |- SchemaTreeProofs.has _ _ _ _ (SchemaTypes.many _ _ :: _) (_ :: _) _ => eapply has_many_one; [reflexivity|reflexivity|first [leaf_ok|tac]|]
  | |- SchemaTreeProofs.has _ _ _ _ (SchemaTypes.some _ _ :: _) (_ :: _) _ => eapply has_some_one; [reflexivity|reflexivity|first [leaf_ok|tac]|]
  | |- SchemaTreeProofs.has _ _ _ _ (_ :: _) (_ :: _) _ => eapply has_alt; [reflexivity|reflexivity|reflexivity|first [leaf_ok|tac]|]
  | |- SchemaTreeProofs.has _ _ _ _ (_ :: _) _ _ => apply has_skip; [reflexivity|reflexivity|]
  end.
Ltac node_ok tac := eapply V_node; repeat step tac.
Ltac clean := rewrite ?given_true, ?forall_true, ?given_nonzero, ?given_nonempty.
Ltac eta := repeat match goal with |- context [fun a => ?f a] => progress change (fun a => f a) with f end.
Ltac built tac := eapply iff_trans; [node_ok tac|clean; eta; try tauto].

Lemma dtstart_ok pu t : good_time t -> (V pu (node "dtstart" [leaf "date-time" (show_time t)]) xcal_dtstart_element <-> True).
Proof. intros G. built idtac. Qed.
Lemma duration_ok pu n z : V pu (node n [leaf "duration" (timedeltaformat z)]) xcal_DurationPropType <-> a_period z.
Proof. built idtac. Qed.
Lemma response_ok pu r : V pu (response_xml r) ei_EiResponseType <-> a_code (r_code r).
Proof. built idtac. Qed.
Lemma answer_ok pu r : V pu (answer_xml r) ei_EiResponseType <-> ok_answer r.
Proof. built idtac. Qed.
Lemma answer_tested_ok pu r : V pu (answer_tested_xml r) ei_EiResponseType <-> ok_answer r.
Proof. built idtac. Qed.
Lemma descriptor_ok pu d : (forall t, In t (maybe (d_modification_date_time d) ++ [d_created d])%list -> good_time t) -> (V pu (descriptor_xml d) ei_eventDescriptorType <-> ok_descriptor isuri d).
Proof. intros G. unfold descriptor_xml. unfold ok_descriptor. built ltac:(node_ok idtac). Qed.
Lemma anything_ok pu n : V pu (leaf n "") Anything <-> True.
Proof. split; [auto|]. intros _. apply V_anything. Qed.
Lemma active_ok pu a : good_time (a_dtstart a) -> (V pu (active_period_xml a) ei_eiActivePeriodType <-> ok_active_period a).
Proof.
  intros G. unfold active_period_xml, ok_active_period.
  assert (P : forall z p, V p (node "tolerance" [node "tolerate" [leaf "startafter" (timedeltaformat z)]]) xcal_properties_element_tolerance <-> a_period z) by (intros; built ltac:(node_ok idtac)).
  built ltac:(idtac; first [now apply dtstart_ok|apply duration_ok|apply P|apply anything_ok|node_ok ltac:(first [now apply dtstart_ok|apply duration_ok|apply P])]).
Qed.
Lemma float_payload_ok pu n x : V pu (node n [node "payloadFloat" [leaf "value" (show_number x)]]) ei_currentValueType <-> a_number x.
Proof. built ltac:(node_ok idtac). Qed.
Lemma signal_payload_ok pu x : V pu (payload_xml "signalPayload" x) ei_signalPayloadType <-> a_number x.
Proof. unfold payload_xml. built ltac:(node_ok idtac). Qed.
Lemma interval_ok pu k i : (forall t, In t (maybe (i_dtstart i)) -> good_time t) -> (V pu (interval_xml k i) ei_IntervalType <-> ok_interval i).
Proof.
  intros G. unfold interval_xml, ok_interval. built ltac:(idtac; first [apply signal_payload_ok|(apply dtstart_ok; time_ok)|apply duration_ok|node_ok idtac]).
Qed.
Lemma intervals_named pu k l c : In c (intervals_xml k l) -> named pu c = in_ei "interval".
Proof. revert k. induction l as [|i l IH]; intros k; [contradiction|]. intros [<-|I]; [reflexivity|]. exact (IH (S k) I). Qed.
Lemma intervals_valid pu k l : (forall t, In t (flat_map (fun i => maybe (i_dtstart i)) l) -> good_time t) -> ((forall c, In c (intervals_xml k l) -> V pu c ei_IntervalType) <-> Forall ok_interval l).
Proof.
  revert k. induction l as [|i l IH]; intros k G; cbn [intervals_xml].
  - split; [constructor|]. intros _ c [].
  - cbn [flat_map] in G. rewrite Forall_cons_iff. rewrite <- (IH (S k)) by (intros t I; apply G, in_app_iff; now right). rewrite <- (interval_ok pu k i) by (intros t I; apply G, in_app_iff; now left).
    split; [intros H; split; [apply H; now left|intros c I; apply H; now right]|]. intros [H1 H2] c [<-|I]; auto.
Qed.
Lemma intervals_ok pu l : (forall t, In t (flat_map (fun i => maybe (i_dtstart i)) l) -> good_time t) ->
  (V pu (node "intervals" (intervals_xml 0 l)) strm_intervals_element <-> l <> [] /\ Forall ok_interval l).
Proof.
  intros G. eapply iff_trans.
  - apply V_node. apply has_end. eapply has_step; [intros c I; exact (intervals_named _ _ _ _ I)|reflexivity|reflexivity|apply has_nil].
  - rewrite (intervals_valid _ 0 l G). destruct l; cbn; intuition congruence.
Qed.
Lemma target_texts_named pu n g ts c : In c (target_xmls n g ts) -> named pu c = clark (uri_of pu n) n.
Proof. intros I. unfold target_xmls in I. apply in_flat_map in I as (t & _ & I). destruct (g t) as [[|a s]|]; cbn in I; [contradiction|destruct I as [<-|[]]; reflexivity|contradiction]. Qed.
Lemma target_texts_valid pu n g ts c : In c (target_xmls n g ts) -> V pu c (Simple [] Schema.Text).
Proof. intros I. unfold target_xmls in I. apply in_flat_map in I as (t & _ & I). destruct (g t) as [[|a s]|]; cbn in I; [contradiction|destruct I as [<-|[]]; now apply V_leaf, text_true|contradiction]. Qed.
Lemma event_target_ok pu ts : V pu (event_target_xml ts) ei_EiTargetType <-> True.
Proof.
  eapply iff_trans.
  - unfold event_target_xml. apply V_node. do 8 (apply has_skip; [reflexivity|reflexivity|]).
    do 4 (eapply has_step; [intros c I; exact (target_texts_named _ _ _ _ _ I)|reflexivity|split; [exact (fun _ => I)|intros _; split; [reflexivity|apply target_texts_valid]]|]).
    apply has_end. eapply has_step; [intros c I; exact (target_texts_named _ _ _ _ _ I)|reflexivity|split; [exact (fun _ => I)|intros _; split; [reflexivity|apply target_texts_valid]]|]. apply has_nil.
  - tauto.
Qed.
Lemma opt_target_ok pu t : V pu (opt_target_xml t) ei_EiTargetType <-> True.
Proof. unfold opt_target_xml. built idtac. Qed.
Lemma source_ok pu t : V pu (source_xml t) ei_EiTargetType <-> True.
Proof. unfold source_xml. built idtac. Qed.
Lemma device_ok pu n m : V pu (node n [node "endDeviceAsset" [leaf "mrid" m]]) ei_EiTargetType <-> True.
Proof. built ltac:(node_ok idtac). Qed.

(** ** Measurements *)
Lemma V_stray pu n cs ps c : In c cs -> (forall p, In p ps -> find_name (named (uri_of pu n) c) (p_alts p) = None) -> ~ V pu (node n cs) (Complex [] ps).
Proof.
  intros I N. Local Transparent SchemaTreeProofs.V. unfold SchemaTreeProofs.V, node. Local Opaque SchemaTreeProofs.V. cbn [qualify validL map existsb attributes forallb blank_text list_ascii_of_string andb].
  intros X. pose proof (kids_stray uri foreign lenient (uri_of pu n) ps cs c I N) as K. unfold kids in K. rewrite K in X. discriminate.
Qed.
Definition factor_xml (m : measurement) : xml := match nonzero (m_pulse_factor m) with Some p => leaf "pulseFactor" (str_of_Z p) | None => leaf "siScaleCode" (m_scale m) end.
Definition power_xml (p : power_attributes) : xml := node "powerAttributes" [leaf "hertz" (str_of_Z (p_hertz p)); leaf "voltage" (str_of_Z (p_voltage p)); leaf "ac" (show_bool (p_ac p))].
Lemma measurement_shape m : measurement_xml m = node (m_name m) ([leaf "itemDescription" (m_description m); leaf "itemUnits" (m_unit m); factor_xml m] ++ Xml.opt power_xml (m_power m))%list.
Proof. reflexivity. Qed.
Lemma decimal_true z : fits uri Decimal (str_of_Z z) = true <-> True.
Proof. split; [auto|]. intros _. apply integer_decimal. Qed.
Lemma power_ok pu p : V pu (power_xml p) power_PowerAttributesType <-> True.
Proof. built ltac:(eapply iff_trans; [apply V_leaf|apply decimal_true]). Qed.
Definition item_types (w : string) (td tu : ty) : list particle := [SchemaTypes.one (clark w "itemDescription") td; SchemaTypes.one (clark w "itemUnits") tu].
Definition scale_particle : particle := SchemaTypes.one (in_scale "siScaleCode") (Simple [] scale_SiScaleCodeType).
Definition power_particle : particle := SchemaTypes.one (in_power "powerAttributes") power_PowerAttributesType.
Definition pulse_particle : particle := SchemaTypes.one (in_oadr "pulseFactor") (Simple [] Float).
Lemma pulse_true z : fits uri Float (str_of_Z z) = true <-> True.
Proof. split; [auto|]. intros _. apply (float_spec uri (NInt z)). exact I. Qed.
Section Bodies.
Variables (pu w : string) (m : measurement) (td tu : ty) (Pd Pu : Prop).
Hypothesis Hw : uri_of pu (m_name m) = w.
Hypothesis Vw : w = oadr_uri \/ w = power_uri.
Hypothesis Hd : V w (leaf "itemDescription" (m_description m)) td <-> Pd.
Hypothesis Hu : V w (leaf "itemUnits" (m_unit m)) tu <-> Pu.
Ltac places := destruct Vw as [->| ->]; reflexivity.
Ltac items := rewrite measurement_shape; unfold factor_xml.
Lemma stray_item c ps : In c ([leaf "itemDescription" (m_description m); leaf "itemUnits" (m_unit m); factor_xml m] ++ Xml.opt power_xml (m_power m))%list ->
  (forall p, In p ps -> find_name (named w c) (p_alts p) = None) -> ~ V pu (measurement_xml m) (Complex [] ps).
Proof. intros I N. rewrite measurement_shape. apply (V_stray _ _ _ _ c I). now rewrite Hw. Qed.
Lemma body_plain : V pu (measurement_xml m) (Complex [] (item_types w td tu ++ [scale_particle])%list) <-> Pd /\ Pu /\ scaled m /\ m_power m = None.
Proof.
  unfold scaled. destruct (nonzero (m_pulse_factor m)) as [z|] eqn:Z.
  { split; [|intros (_ & _ & [X _] & _); discriminate]. intros X. exfalso. revert X. apply (stray_item (leaf "pulseFactor" (str_of_Z z))); [unfold factor_xml; rewrite Z; cbn; auto|]. intros p [<-|[<-|[<-|[]]]]; places. }
  destruct (m_power m) as [q|] eqn:Q.
  { split; [|intros (_ & _ & _ & X); discriminate]. intros X. exfalso. revert X. apply (stray_item (power_xml q)); [rewrite Q; cbn; auto|]. intros p [<-|[<-|[<-|[]]]]; places. }
  items. rewrite Z, Q. eapply iff_trans.
  - apply V_node. rewrite Hw. cbn [app Xml.opt item_types]. eapply has_one; [places|places|exact Hd|]. eapply has_one; [places|places|exact Hu|]. eapply has_one; [places|reflexivity|leaf_ok|apply has_nil].
  - unfold scale_codes. tauto.
Qed.
Lemma body_power : V pu (measurement_xml m) (Complex [] (item_types w td tu ++ [scale_particle; power_particle])%list) <-> Pd /\ Pu /\ scaled m /\ m_power m <> None.
Proof.
  unfold scaled. destruct (nonzero (m_pulse_factor m)) as [z|] eqn:Z.
  { split; [|intros (_ & _ & [X _] & _); discriminate]. intros X. exfalso. revert X. apply (stray_item (leaf "pulseFactor" (str_of_Z z))); [unfold factor_xml; rewrite Z; cbn; auto|]. intros p [<-|[<-|[<-|[<-|[]]]]]; places. }
  items. rewrite Z. eapply iff_trans.
  - apply V_node. rewrite Hw. cbn [app item_types]. eapply has_one; [places|places|exact Hd|]. eapply has_one; [places|places|exact Hu|]. eapply has_one; [places|reflexivity|leaf_ok|].
    apply has_end. eapply has_must; [intros q; places|reflexivity|intros q _; apply power_ok|apply has_nil].
  - unfold scale_codes. destruct (m_power m) as [q|]; [|split; [intros (_ & _ & _ & (q & X & _) & _); discriminate|intros (_ & _ & _ & X); now elim X]].
    assert (E : exists a, Some q = Some a /\ True) by eauto. assert (N : Some q <> None) by discriminate. tauto.
Qed.
Lemma body_pulse : V pu (measurement_xml m) (Complex [] (item_types w td tu ++ [pulse_particle])%list) <-> Pd /\ Pu /\ nonzero (m_pulse_factor m) <> None /\ m_power m = None.
Proof.
  destruct (nonzero (m_pulse_factor m)) as [z|] eqn:Z.
  2:{ split; [|intros (_ & _ & X & _); now elim X]. intros X. exfalso. revert X. apply (stray_item (leaf "siScaleCode" (m_scale m))); [unfold factor_xml; rewrite Z; cbn; auto|]. intros p [<-|[<-|[<-|[]]]]; places. }
  destruct (m_power m) as [q|] eqn:Q.
  { split; [|intros (_ & _ & _ & X); discriminate]. intros X. exfalso. revert X. apply (stray_item (power_xml q)); [rewrite Q; cbn; auto|]. intros p [<-|[<-|[<-|[]]]]; places. }
  items. rewrite Z, Q. eapply iff_trans.
  - apply V_node. rewrite Hw. cbn [app Xml.opt item_types]. eapply has_one; [places|places|exact Hd|]. eapply has_one; [places|places|exact Hu|]. eapply has_one; [places|reflexivity|eapply iff_trans; [apply V_leaf|apply pulse_true]|apply has_nil].
  - assert (N : Some z <> None) by discriminate. tauto.
Qed.
End Bodies.

Lemma a_measurement_plain m n d u : m_name m = n -> In (n, d, u) plain_units -> (a_measurement bare m <-> says bare (m_description m) d /\ says bare (m_unit m) u /\ scaled m /\ m_power m = None).
Proof.
  intros N I. split.
  - intros H. unfold plain_units in I. cbn [In] in I. repeat destruct I as [I|I]; try contradiction; injection I as <- <- <-;
      destruct H as [d u J|d u J|J|J|J|J|J]; rewrite N in J; cbn [plain_units power_units In] in J; repeat destruct J as [J|J]; try contradiction; try discriminate J; try (injection J as <- <-; tauto).
  - intros (A & B & C & D). apply (am_plain bare m d u); auto. now rewrite N.
Qed.
Lemma a_measurement_power m n d u : m_name m = n -> In (n, d, u) power_units -> (a_measurement bare m <-> says bare (m_description m) d /\ says bare (m_unit m) u /\ scaled m /\ m_power m <> None).
Proof.
  intros N I. split.
  - intros H. unfold power_units in I. cbn [In] in I. repeat destruct I as [I|I]; try contradiction; injection I as <- <- <-;
      destruct H as [d u J|d u J|J|J|J|J|J]; rewrite N in J; cbn [plain_units power_units In] in J; repeat destruct J as [J|J]; try contradiction; try discriminate J; try (injection J as <- <-; tauto).
  - intros (A & B & C & D). apply (am_power bare m d u); auto. now rewrite N.
Qed.
Ltac other_kinds N H := destruct H as [d u J|d u J|J|J|J|J|J]; rewrite N in J; cbn [plain_units power_units In] in J; repeat destruct J as [J|J]; try contradiction; try discriminate J; try tauto.
Lemma a_measurement_real m : m_name m = "powerReal" -> (a_measurement bare m <-> says bare (m_description m) "RealPower" /\ reads_one (m_unit m) ["W"; "J/s"] /\ scaled m /\ m_power m <> None).
Proof. intros N. split; [intros H; other_kinds N H|]. intros (A & B & C & D). now apply am_real_power. Qed.
Lemma a_measurement_currency m : In (m_name m) ["currency"; "currencyPerKWh"; "currencyPerThm"] ->
  (a_measurement bare m <-> reads_one (m_description m) ["currency"; "currencyPerKW"; "currencyPerKWh"] /\ reads_one (m_unit m) currency_codes /\ scaled m /\ m_power m = None).
Proof. intros I. split; [|intros (A & B & C & D); now apply am_currency]. intros H. destruct I as [I|[I|[I|[]]]]; symmetry in I; other_kinds I H. Qed.
Lemma a_measurement_temperature m : m_name m = "temperature" -> (a_measurement bare m <-> says bare (m_description m) "temperature" /\ reads_one (m_unit m) ["celsius"; "fahrenheit"] /\ scaled m /\ m_power m = None).
Proof. intros N. split; [intros H; other_kinds N H|]. intros (A & B & C & D). now apply am_temperature. Qed.
Lemma a_measurement_pulses m : m_name m = "pulseCount" -> (a_measurement bare m <-> says bare (m_description m) "pulse count" /\ says bare (m_unit m) "count" /\ nonzero (m_pulse_factor m) <> None /\ m_power m = None).
Proof. intros N. split; [intros H; other_kinds N H|]. intros (A & B & C & D). now apply am_pulses. Qed.
Lemma a_measurement_custom m : m_name m = "customUnit" -> (a_measurement bare m <-> True /\ True /\ scaled m /\ m_power m = None).
Proof. intros N. split; [intros H; other_kinds N H|]. intros (A & B & C & D). now apply am_custom. Qed.
Lemma a_measurement_none m : m_name m = "currencyPerWK" -> ~ a_measurement bare m.
Proof. intros N H. other_kinds N H. Qed.

Lemma currency_ok t : fits uri clm5ISO42173A_ISO3AlphaCurrencyCodeContentType t = true <-> reads_one t currency_codes.
Proof.
  unfold clm5ISO42173A_ISO3AlphaCurrencyCodeContentType. rewrite token_spec.
  assert (S : forall a b, forallb (fun v => existsb (String.eqb v) b) a = true -> reads_one t a -> reads_one t b).
  { intros a b F (v & R & I). exists v. split; [exact R|]. rewrite forallb_forall in F. apply existsb_In. exact (F v I). }
  split; apply S; vm_compute; reflexivity.
Qed.
Definition known_name (n : string) : Prop := In n (map fst measurement_namespaces).
(** A measurement is an element that the schema knows, or not acceptable. *)
Lemma measurement_ok m : known_name (m_name m) ->
  (exists t, (forall pu, find_name (named pu (measurement_xml m)) measurement_elements = Some t) /\ forall pu, V pu (measurement_xml m) t <-> a_measurement bare m) \/
  (m_name m = "currencyPerWK" /\ ~ a_measurement bare m).
Proof.
  intros K. unfold known_name in K. cbn [measurement_namespaces map fst In] in K.
  repeat (destruct K as [K|K]; [symmetry in K|]); try contradiction; try (right; split; [exact K|exact (a_measurement_none m K)]); left;
    (eexists; split; [intros pu; unfold named; rewrite measurement_shape, K; reflexivity|]); intros pu.
  all: match goal with |- _ <-> ?A => assert (W : uri_of pu (m_name m) = oadr_uri \/ uri_of pu (m_name m) = power_uri) by (rewrite K; first [left; reflexivity|right; reflexivity]) end.
  all: first
    [ (rewrite (a_measurement_plain m _ _ _ K) by (cbn; tauto); eapply (body_plain pu); [rewrite K; reflexivity|first [left; reflexivity|right; reflexivity]|apply V_fixed|apply V_fixed])
    | (rewrite (a_measurement_power m _ _ _ K) by (cbn; tauto); eapply (body_power pu); [rewrite K; reflexivity|first [left; reflexivity|right; reflexivity]|apply V_fixed|apply V_fixed])
    | (rewrite (a_measurement_real m K); eapply (body_power pu); [rewrite K; reflexivity|first [left; reflexivity|right; reflexivity]|apply V_fixed|leaf_ok])
    | (rewrite (a_measurement_currency m) by (rewrite K; cbn; tauto); eapply (body_plain pu); [rewrite K; reflexivity|first [left; reflexivity|right; reflexivity]|leaf_ok|eapply iff_trans; [apply V_leaf|apply currency_ok]])
    | (rewrite (a_measurement_temperature m K); eapply (body_plain pu); [rewrite K; reflexivity|first [left; reflexivity|right; reflexivity]|apply V_fixed|leaf_ok])
    | (rewrite (a_measurement_pulses m K); eapply (body_pulse pu); [rewrite K; reflexivity|first [left; reflexivity|right; reflexivity]|apply V_fixed|apply V_fixed])
    | (rewrite (a_measurement_custom m K); eapply (body_plain pu); [rewrite K; reflexivity|first [left; reflexivity|right; reflexivity]|leaf_ok|leaf_ok]) ].
Qed.

(** ** Events *)
(** An optional measurement. *)
Lemma has_measurement pu o ps cs Q : (forall n, In n (measurement_names o) -> known_name n) -> apart (opt_of measurement_elements) ps = true -> has pu ps cs Q ->
  (o = None \/ exists m, o = Some m /\ m_name m <> "currencyPerWK") -> has pu (opt_of measurement_elements :: ps) (Xml.opt measurement_xml o ++ cs)%list (if_given (a_measurement bare) o /\ Q).
Proof.
  intros K A H [->|(m & -> & N)].
  - cbn [Xml.opt app if_given]. destruct (has_skip uri foreign lenient pu (opt_of measurement_elements) ps cs Q eq_refl A H) as [X Y]. split; [exact X|]. rewrite Y. tauto.
  - cbn [Xml.opt app if_given]. destruct (measurement_ok m) as [(t & F & E)|[X _]]; [apply K; now left| |contradiction]. eapply has_alt; [apply F|reflexivity|exact A|apply E|exact H].
Qed.
Lemma signal_ok pu s : (forall t, In t (signal_times s) -> good_time t) -> (forall n, In n (measurement_names (s_measurement s)) -> known_name n) ->
  (V pu (signal_xml s) ei_eiEventSignalType <-> ok_signal bare s).
Proof.
  intros G K. unfold ok_signal.
  assert (C : (s_measurement s = None \/ exists m, s_measurement s = Some m /\ m_name m <> "currencyPerWK") \/ exists m, s_measurement s = Some m /\ m_name m = "currencyPerWK").
  { destruct (s_measurement s) as [m|]; [|auto]. destruct (string_dec (m_name m) "currencyPerWK"); [right|left; right]; eauto. }
  destruct C as [C|(m & E & N)].
  - eapply iff_trans.
    + unfold signal_xml. apply V_node. do 5 step ltac:(apply (intervals_ok _ _ G)). cbn [app]. eapply has_measurement; [exact K|reflexivity| |exact C].
      repeat step ltac:(apply float_payload_ok).
    + clean. eta. unfold signal_names, signal_types. tauto.
  - split.
    + intros X. exfalso. revert X. unfold signal_xml. rewrite E. apply (V_stray _ _ _ _ (measurement_xml m)); [cbn; tauto|].
      unfold named. rewrite measurement_shape, N. intros p I. cbn [In] in I. repeat destruct I as [<-|I]; try contradiction; reflexivity.
    + intros (_ & _ & _ & _ & X & _). rewrite E in X. cbn [if_given] in X. now apply a_measurement_none in X.
Qed.
Lemma event_ok pu e : (forall t, In t (event_times e) -> good_time t) -> (forall n, In n (event_names e) -> known_name n) ->
  (V pu (event_xml e) oadr_oadrDistributeEventType_oadrEvent <-> ok_event isuri bare e).
Proof.
  intros G K. unfold event_times in G. unfold ok_event, event_xml.
  assert (D : forall p, V p (descriptor_xml (e_descriptor e)) ei_eventDescriptorType <-> ok_descriptor isuri (e_descriptor e)).
  { intros p. apply descriptor_ok. intros t I. apply G. rewrite !in_app_iff in *. cbn in *. tauto. }
  assert (A : forall p, V p (active_period_xml (e_active_period e)) ei_eiActivePeriodType <-> ok_active_period (e_active_period e)) by (intros p; apply active_ok, G; rewrite !in_app_iff; cbn; tauto).
  assert (S : forall p, V p (node "eiEventSignals" (map signal_xml (e_signals e))) ei_eiEventSignalsType <-> (e_signals e <> [] /\ Forall (ok_signal bare) (e_signals e)) /\ True).
  { intros p. apply V_node. apply has_end. eapply has_some; [reflexivity|reflexivity| |step idtac; apply has_nil]. intros s I. apply signal_ok.
    - intros t J. apply G. rewrite !in_app_iff. right. right. apply in_flat_map. eauto.
    - intros n J. apply K. unfold event_names. apply in_flat_map. eauto. }
  eapply iff_trans.
  - node_ok ltac:(node_ok ltac:(first [apply D|apply A|apply S|apply event_target_ok])).
  - assert (T : (exists a : list target, e_targets e = Some a /\ True) <-> e_targets e <> None) by (destruct (e_targets e); [split; [discriminate|eauto]|split; [intros (a & X & _); discriminate|tauto]]).
    rewrite T. tauto.
Qed.
Lemma event_response_ok pu r : V pu (event_response_xml r) ei_eventResponses_element_eventResponse <-> ok_event_response r.
Proof. unfold event_response_xml, ok_event_response, opt_types. built ltac:(node_ok idtac). Qed.

(** ** Reports *)
Lemma report_interval_ok pu i : good_time (ri_dtstart i) -> (V pu (report_interval_xml i) ei_IntervalType <-> ok_report_interval i).
Proof.
  intros G. unfold report_interval_xml, ok_report_interval, qualities. cbv zeta. built ltac:(idtac; first [now apply dtstart_ok|apply duration_ok|node_ok ltac:(node_ok idtac)]).
Qed.
Lemma report_intervals_ok pu l : (forall i, In i l -> good_time (ri_dtstart i)) -> (V pu (node "intervals" (map report_interval_xml l)) strm_intervals_element <-> l <> [] /\ Forall ok_report_interval l).
Proof. intros G. built ltac:(apply report_interval_ok; auto). Qed.
Lemma report_ok pu r : (forall t, In t (report_times r) -> good_time t) -> (V pu (report_xml r) oadr_oadrReportType <-> ok_report r).
Proof.
  intros G. unfold report_xml, ok_report, report_names. unfold report_times in G.
  assert (Gi : forall i, In i (rt_intervals r) -> good_time (ri_dtstart i)) by (intros i I; apply G; rewrite !in_app_iff; right; left; now apply in_map).
  assert (R : forall cs (ps : list particle) p Q, apart (SchemaTypes.opt (in_strm "intervals") strm_intervals_element) ps = true -> has p ps cs Q ->
    has p (SchemaTypes.opt (in_strm "intervals") strm_intervals_element :: ps) (match rt_intervals r with [] => [] | l => [node "intervals" (map report_interval_xml l)] end ++ cs)%list (Forall ok_report_interval (rt_intervals r) /\ Q)).
  { intros cs ps p Q A H. destruct (rt_intervals r) as [|i l].
    - cbn [app]. destruct (has_skip uri foreign lenient p (SchemaTypes.opt (in_strm "intervals") strm_intervals_element) ps cs Q eq_refl A H) as [X Y]. split; [exact X|]. rewrite Y. assert (Forall ok_report_interval []) by constructor. tauto.
    - cbn [app]. eapply has_opt_one; [reflexivity|exact A| |exact H]. rewrite (report_intervals_ok _ _ Gi). assert (i :: l <> []) by discriminate. tauto. }
  eapply iff_trans.
  - apply V_node. do 2 step ltac:(apply dtstart_ok; time_ok). apply R; [reflexivity|]. do 8 step idtac.
  - clean. eta. tauto.
Qed.
Lemma sampling_ok pu s : V pu (sampling_xml s) oadr_oadrSamplingRateType <-> ok_sampling s.
Proof. unfold sampling_xml, ok_sampling. built idtac. Qed.
Lemma description_ok pu d : (forall n, In n (measurement_names (rd_measurement d)) -> known_name n) -> (V pu (description_xml d) oadr_oadrReportDescriptionType <-> ok_description isuri bare d).
Proof.
  intros K. unfold ok_description.
  assert (C : (rd_measurement d = None \/ exists m, rd_measurement d = Some m /\ m_name m <> "currencyPerWK") \/ exists m, rd_measurement d = Some m /\ m_name m = "currencyPerWK").
  { destruct (rd_measurement d) as [m|]; [|auto]. destruct (string_dec (m_name m) "currencyPerWK"); [right|left; right]; eauto. }
  destruct C as [C|(m & E & N)].
  - eapply iff_trans.
    + unfold description_xml. apply V_node. do 4 step ltac:(first [apply device_ok|apply source_ok]). cbn [app]. eapply has_measurement; [exact K|reflexivity| |exact C].
      repeat step ltac:(apply sampling_ok).
    + clean. eta. unfold report_types, reading_types. tauto.
  - split.
    + intros X. exfalso. revert X. unfold description_xml. rewrite E. apply (V_stray _ _ _ _ (measurement_xml m)); [rewrite !in_app_iff; cbn; tauto|].
      unfold named. rewrite measurement_shape, N. intros p I. cbn [In] in I. repeat destruct I as [<-|I]; try contradiction; reflexivity.
    + intros (_ & X & _). rewrite E in X. cbn [if_given] in X. now apply a_measurement_none in X.
Qed.
Lemma offer_ok pu o : good_time (of_created o) -> (forall n, In n (offer_names o) -> known_name n) -> (V pu (offer_xml o) oadr_oadrReportType <-> ok_offer isuri bare o).
Proof.
  intros G K. unfold ok_offer, offer_xml, report_names. eapply iff_trans.
  - apply V_node. step idtac. 
    repeat step ltac:(first [apply duration_ok|apply description_ok; intros n I; apply K; unfold offer_names; apply in_flat_map; eauto]).
  - clean. eta. tauto.
Qed.
Lemma request_ok pu r : (forall t, In t (request_times r) -> good_time t) -> (V pu (report_request_xml r) oadr_oadrReportRequestType <-> ok_request r).
Proof.
  intros G. unfold ok_request, report_request_xml.
  assert (I : forall p i, rr_interval r = Some i -> (V p (node "reportInterval" [node "properties" [node "dtstart" [leaf "date-time" (show_time (fst i))]; node "duration" [leaf "duration" (timedeltaformat (snd i))]]]) xcal_WsCalendarIntervalType <-> a_period (snd i))).
  { intros p i E. assert (Gi : good_time (fst i)) by (apply G; unfold request_times; rewrite E; now left).
    built ltac:(node_ok ltac:(first [now apply dtstart_ok|apply duration_ok])). }
  assert (P : forall p q, V p (specifier_payload_xml q) ei_SpecifierPayloadType <-> reads_own (snd q) reading_types).
  { intros p q. unfold specifier_payload_xml, reading_types. built idtac. }
  eapply iff_trans.
  - node_ok ltac:(node_ok ltac:(first [apply duration_ok|now apply I|apply P])).
  - clean. tauto.
Qed.

(** ** Registration *)
Lemma profile_ok pu p : V pu (profile_xml p) oadr_oadrProfiles_element_oadrProfile <-> ok_profile p.
Proof.
  unfold profile_xml, ok_profile. assert (T : forall q t, V q (transport_xml t) oadr_oadrTransports_element_oadrTransport <-> reads_one t transport_names) by (intros; unfold transport_xml, transport_names; built idtac).
  unfold profile_names. built ltac:(node_ok ltac:(apply T)).
Qed.

(** ** Opts *)
Lemma available_ok pu c : good_time (fst c) -> (V pu (available_xml c) xcal_AvailableType <-> a_period (snd c)).
Proof. intros G. unfold available_xml. built ltac:(node_ok ltac:(first [now apply dtstart_ok|apply duration_ok])). Qed.
Lemma has_target pu ts ps cs Q : apart (SchemaTypes.one (in_ei "eiTarget") ei_EiTargetType) ps = true -> has pu ps cs Q ->
  has pu (SchemaTypes.one (in_ei "eiTarget") ei_EiTargetType :: ps) (opt_targets_xml ts ++ cs)%list ((length ts <= 1)%nat /\ Q).
Proof.
  intros A H. eapply has_step; [|exact A| |exact H].
  - intros c I. destruct ts as [|t ts]; [destruct I as [<-|[]]; reflexivity|]. cbn [opt_targets_xml] in I. apply in_map_iff in I as (t' & <- & _). reflexivity.
  - destruct ts as [|t ts].
    + cbn [opt_targets_xml length]. split; [lia|]. intros _. split; [reflexivity|]. intros c [<-|[]]. apply V_empty. reflexivity.
    + cbn [opt_targets_xml]. rewrite map_length. unfold enough. cbn [fst snd andb Nat.leb length]. rewrite Nat.leb_le. split; [intros [L _]; lia|]. intros L. split; [lia|].
      intros c I. apply in_map_iff in I as (t' & <- & _). now apply opt_target_ok.
Qed.

(** ** Messages *)
Lemma V_signed pu m P : has oadr_uri (match oadr_oadrSignedObject_element with Complex _ ps => ps | _ => [] end) [m] P -> (V pu (signed_object_xml m) oadr_oadrSignedObject_element <-> P).
Proof.
  intros [_ H]. rewrite <- H. Local Transparent SchemaTreeProofs.V fits. unfold SchemaTreeProofs.V, kids, signed_object_xml, oadr_oadrSignedObject_element. cbn [qualify validL].
  change (existsb instance_attribute (map qualify_attr [("Id", "oadrSignedObject")])) with false. cbn iota.
  change (attributes uri [(in_oadr "Id", Id)] (map qualify_attr [("Id", "oadrSignedObject")])) with true. cbn [andb blank_text list_ascii_of_string forallb]. change (uri_of pu "oadrSignedObject") with oadr_uri. reflexivity.
  Local Opaque SchemaTreeProofs.V fits.
Qed.
Ltac message tac := eapply iff_trans; [apply V_signed; eapply has_alt; [reflexivity|reflexivity|reflexivity|eapply V_message; repeat step tac|apply has_nil]|clean; eta; try tauto].
Ltac opt_time G := apply G; unfold opt_times; match goal with H : om_availability _ = Some _ |- _ => rewrite H end; right; now apply in_map.
Ltac times_of G := let t := fresh in let I := fresh in intros t I; apply G; apply in_flat_map; eauto.
Lemma demands_valid ns n p m texts names times cond pu : demands isuri bare ns n p m texts names times cond -> (forall t, In t times -> good_time t) -> (forall n, In n names -> known_name n) ->
  (V pu (signed_object_xml m) oadr_oadrSignedObject_element <-> cond).
Proof.
  intros D G K. destruct D.
  - message ltac:(first [apply response_ok|apply event_ok; [times_of G|times_of K]]). destruct r; cbn; tauto.
  - message ltac:(node_ok ltac:(node_ok ltac:(apply event_response_ok))).
  - message ltac:(apply report_ok; times_of G).
  - message idtac.
  - unfold ok_party, profile_names, transport_names. message idtac.
  - unfold ok_created_party. message ltac:(first [apply answer_ok|apply duration_ok|node_ok ltac:(apply profile_ok)]).
  - message idtac.
  - message ltac:(apply answer_ok).
  - message idtac.
  - message idtac.
  - message ltac:(apply offer_ok; [apply G, in_map; assumption|times_of K]).
  - message ltac:(first [apply answer_ok|apply request_ok; times_of G]).
  - message ltac:(apply request_ok; times_of G).
  - message ltac:(first [apply answer_ok|node_ok idtac]).
  - message ltac:(first [apply answer_ok|node_ok idtac]).
  - message ltac:(first [apply answer_tested_ok|node_ok idtac]).
  - message ltac:(node_ok idtac).
  - message idtac.
  - message ltac:(first [apply answer_tested_ok|node_ok idtac]). destruct c as [c|]; cbn [if_given]; clean; tauto.
  - unfold ok_opt, opt_types, opt_reasons. eapply iff_trans; [apply V_signed; eapply has_alt; [reflexivity|reflexivity|reflexivity| |apply has_nil]|].
    + eapply V_message. 
     do 9 step ltac:(first [node_ok ltac:(node_ok ltac:(apply available_ok; opt_time G))|node_ok idtac]). apply has_target; [reflexivity|]. repeat step ltac:(apply device_ok).
    + clean. eta. destruct (om_availability o), (om_event o); cbn [if_given]; tauto.
  - message ltac:(apply answer_ok).
  - message ltac:(apply answer_ok).
  - message idtac.
Qed.
End Messages.
