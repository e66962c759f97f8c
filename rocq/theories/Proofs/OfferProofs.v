(** What arrives of report offers. *)
From Coq Require Import ZArith String Ascii List Bool Lia Arith.
From Verif.Base Require Import Result Dict PyStr ListExtra.
From Verif.Model Require Import Duration DateTime Text Normalize Xml XmlParty.
From Verif.Spec Require Import TextSpec MessageSpec PartySpec.
From Verif.Proofs Require Import TextProofs NormalizeProofs MessageProofs ArrivalProofs BlockProofs PartyProofs.
Import ListNotations.
Local Open Scope string_scope.

(** ** The measurement of a description *)
Definition unmeasured (d : vdict) : bool := forallb (fun kv => negb (existsb (String.eqb (fst kv)) ("measurement" :: measurement_namespaces))) d.
Lemma unmeasured_get d k : unmeasured d = true -> In k ("measurement" :: measurement_namespaces) -> vget k d = None.
Proof.
  intros U I. apply vget_none. intros J. unfold unmeasured in U. rewrite forallb_forall in U. apply in_map_iff in J as ([k' v] & E & J). cbn in E. subst k'.
  apply U in J. rewrite negb_true_iff in J. cbn [fst] in J. apply existsb_in in I. congruence.
Qed.
Lemma vdel_mid k v (a b : vdict) : vget k a = None -> vdel k (a ++ (k, v) :: b)%list = (a ++ b)%list.
Proof.
  unfold vdel, vget. induction a as [|[k2 v2] a IH]; cbn [app get del]; [intros _; now rewrite String.eqb_refl|].
  destruct (String.eqb k k2) eqn:E; [discriminate|]. intros H. now rewrite IH.
Qed.
Lemma measured_mid a b m : unmeasured a = true -> unmeasured b = true -> good_measurement m ->
  measured (VDict (a ++ (m_name m, VDict (steps_payload (measurement_steps m))) :: b)%list) = Ok (Some (VDict (a ++ b ++ [("measurement", VDict (measurement_members m))])%list)).
Proof.
  intros A B [G _]. unfold measured.
  rewrite (find_only _ (m_name m)); [|exact G|intros k I; apply vmem_mid; (apply unmeasured_get; [assumption|now right])].
  rewrite vget_app, (unmeasured_get a (m_name m)) by (try assumption; now right).
  unfold vget at 1. cbn [get]. rewrite String.eqb_refl.
  rewrite (vdel_mid (m_name m)) by (apply unmeasured_get; [assumption|now right]).
  assert (N : vget "measurement" (a ++ b)%list = None) by (rewrite vget_app, !unmeasured_get; [reflexivity|assumption|now left|assumption|now left]).
  assert (E : forall x, vset "measurement" x (a ++ b)%list = (a ++ b ++ [("measurement", x)])%list) by (intros x; rewrite vset_absent by exact N; now rewrite <- app_assoc).
  unfold measurement_members, measurement_steps. destruct (nonzero (m_pulse_factor m)), (m_power m); rewrite <- E; reflexivity.
Qed.
Lemma measured_none d : unmeasured d = true -> measured (VDict d) = Ok None.
Proof.
  intros U. unfold measured. assert (F : find (fun m => vmem m d) measurement_namespaces = None).
  { destruct (find _ _) as [k|] eqn:E; [|reflexivity]. apply find_some in E as [I M]. unfold vmem, mem in M. fold (vget k d) in M.
    rewrite unmeasured_get in M; [discriminate|exact U|now right]. }
  now rewrite F.
Qed.

Section Offer.
Context (num : numbers).
Local Notation arrives := (arrives num).
Local Notation good_step := (good_step num).
Ltac steps := repeat (apply Forall_cons; [|]); try apply Forall_nil.

(** ** The parts of a description *)
Definition subject_part (s : string) : xml := node "reportSubject" [node "endDeviceAsset" [leaf "mrid" s]].
Definition subject_members (s : string) : vdict := [("end_device_asset", VDict [("mrid", VStr s)])].
Lemma step_subject n s : plain s -> good_step (S (S n)) (subject_part s, [("report_subject", VDict (subject_members s))]).
Proof.
  intros P.
  assert (A : arrives (S n) (node "endDeviceAsset" [leaf "mrid" s]) [("mrid", VStr s)]).
  { apply (arrives_node num n "endDeviceAsset" [(leaf "mrid" s, [("mrid", VStr s)])]); [discriminate| |reflexivity]. steps. now apply step_text. }
  assert (B : arrives (S (S n)) (subject_part s) (subject_members s)).
  { apply (arrives_node num (S n) "reportSubject" [(node "endDeviceAsset" [leaf "mrid" s], [("end_device_asset", VDict [("mrid", VStr s)])])]); [discriminate| |reflexivity].
    steps. apply (step_intro num _ _ "end_device_asset" (VDict [("mrid", VStr s)])); try reflexivity; [now apply value_arrives|apply value_stable, A]. }
  apply (step_intro num _ _ "report_subject" (VDict (subject_members s))); try reflexivity; [now apply value_arrives|apply value_stable, B].
Qed.
Definition source_steps (t : target) : list (xml * vdict) :=
  (ostep (leaf "groupID") (fun s => [("group_id", VStr s)]) (nonempty_text (t_group_id t))
   ++ ostep (leaf "groupName") (fun s => [("group_name", VStr s)]) (nonempty_text (t_group_name t))
   ++ ostep (leaf "resourceID") (fun s => [("resource_id", VStr s)]) (nonempty_text (t_resource_id t))
   ++ ostep (leaf "venID") (fun s => [("ven_id", VStr s)]) (nonempty_text (t_ven_id t))
   ++ ostep (leaf "partyID") (fun s => [("party_id", VStr s)]) (nonempty_text (t_party_id t)))%list.
Definition source_val (t : target) : val := match steps_payload (source_steps t) with [] => VNone | p => VDict p end.
Definition good_source (t : target) : Prop :=
  good plain (nonempty_text (t_group_id t)) /\ good plain (nonempty_text (t_group_name t)) /\ good plain (nonempty_text (t_resource_id t)) /\
  good plain (nonempty_text (t_ven_id t)) /\ good plain (nonempty_text (t_party_id t)).
Lemma step_source n t : good_source t -> good_step (S n) (source_xml t, [("report_data_source", source_val t)]).
Proof.
  intros (A & B & C & D & E).
  assert (X : source_xml t = node "reportDataSource" (map fst (source_steps t))) by (unfold source_xml, source_steps; now rewrite !map_app, !map_ostep).
  assert (G : Forall (good_step n) (source_steps t)).
  { unfold source_steps. repeat (apply Forall_app; split); (eapply good_ostep; [eassumption|]; intros v P; now apply step_text). }
  assert (R : steps_payload (source_steps t) <> [] -> arrives (S n) (source_xml t) (steps_payload (source_steps t))).
  { intros N. rewrite X. apply arrives_node; [|exact G|].
    - intros H. apply N. now rewrite H.
    - unfold source_steps. destruct (nonempty_text (t_group_id t)), (nonempty_text (t_group_name t)), (nonempty_text (t_resource_id t)), (nonempty_text (t_ven_id t)), (nonempty_text (t_party_id t)); reflexivity. }
  assert (U : steps_payload (source_steps t) <> [] -> unnest num "report_data_source" (VDict (steps_payload (source_steps t))) = Ok (Some (VDict (steps_payload (source_steps t))))).
  { unfold source_steps. clear.
    destruct (nonempty_text (t_group_id t)), (nonempty_text (t_group_name t)), (nonempty_text (t_resource_id t)), (nonempty_text (t_ven_id t)), (nonempty_text (t_party_id t));
      cbn; intros N; try reflexivity. now elim N. }
  unfold source_val. destruct (steps_payload (source_steps t)) as [|kv p] eqn:K.
  - assert (N : source_steps t = []).
    { revert K. unfold source_steps. clear. destruct (nonempty_text (t_group_id t)), (nonempty_text (t_group_name t)), (nonempty_text (t_resource_id t)), (nonempty_text (t_ven_id t)), (nonempty_text (t_party_id t));
      cbn; intros K; try discriminate K; reflexivity. }
    rewrite X, N. now apply step_none.
  - specialize (R ltac:(discriminate)). specialize (U ltac:(discriminate)).
    apply (step_intro num _ _ "report_data_source" (VDict (kv :: p))); [rewrite X; reflexivity|rewrite X; rewrite <- X; now apply value_arrives|exact U|apply value_stable, R|exact U].
Qed.
Definition sampling_members (s : sampling) : vdict := [("min_period", VDur (sr_min s)); ("max_period", VDur (sr_max s)); ("on_change", VBool (sr_on_change s))].
Lemma step_sampling n s : good_sampling s -> good_step (S n) (sampling_xml s, [("sampling_rate", VDict (sampling_members s))]).
Proof.
  intros [A B]. apply step_dict; try reflexivity.
  apply (arrives_node num n "oadrSamplingRate" [(leaf "oadrMinPeriod" (timedeltaformat (sr_min s)), [("min_period", VDur (sr_min s))]);
    (leaf "oadrMaxPeriod" (timedeltaformat (sr_max s)), [("max_period", VDur (sr_max s))]); (leaf "oadrOnChange" (show_bool (sr_on_change s)), [("on_change", VBool (sr_on_change s))])]);
    [discriminate| |reflexivity].
  steps; [| |now apply step_bool].
  all: apply step_leaf; try reflexivity; [apply timedeltaformat_one_line | now apply interpret_duration].
Qed.

(** ** A description *)
Definition before_steps (d : description) : list (xml * vdict) :=
  ([(leaf "rID" (rd_r_id d), [("r_id", VStr (rd_r_id d))])]
   ++ ostep subject_part (fun s => [("report_subject", VDict (subject_members s))]) (nonempty_text (rd_mrid d))
   ++ ostep source_xml (fun t => [("report_data_source", source_val t)]) (rd_source d)
   ++ [(leaf "reportType" (rd_type d), [("report_type", VStr (rd_type d))])])%list.
Definition after_steps (d : description) : list (xml * vdict) :=
  ([(leaf "readingType" (rd_reading d), [("reading_type", VStr (rd_reading d))])]
   ++ ostep (leaf "marketContext") (fun s => [("market_context", VStr s)]) (nonempty_text (rd_market d))
   ++ ostep sampling_xml (fun s => [("sampling_rate", VDict (sampling_members s))]) (rd_sampling d))%list.
Definition description_steps (d : description) : list (xml * vdict) :=
  (before_steps d ++ ostep measurement_xml (fun m => [(m_name m, VDict (steps_payload (measurement_steps m)))]) (rd_measurement d) ++ after_steps d)%list.
Definition description_members (d : description) (m : measurement) : vdict :=
  (steps_payload (before_steps d) ++ steps_payload (after_steps d) ++ [("measurement", VDict (measurement_members m))])%list.
Definition good_description' (d : description) : Prop :=
  plain (rd_r_id d) /\ good plain (nonempty_text (rd_mrid d)) /\ good good_source (rd_source d) /\ plain (rd_type d) /\ good good_measurement (rd_measurement d) /\
  plain (rd_reading d) /\ good plain (nonempty_text (rd_market d)) /\ good good_sampling (rd_sampling d).
Lemma good_before n d : good_description' d -> Forall (good_step (S (S n))) (before_steps d).
Proof.
  intros (A & B & C & D & _). unfold before_steps. apply Forall_app; split; [steps; now apply step_text|].
  apply Forall_app; split; [eapply good_ostep; [exact B|]; intros x P; now apply step_subject|].
  apply Forall_app; split; [eapply good_ostep; [exact C|]; intros x P; now apply step_source|]. steps. now apply step_text.
Qed.
Lemma good_after n d : good_description' d -> Forall (good_step (S (S n))) (after_steps d).
Proof.
  intros (_ & _ & _ & _ & _ & A & B & C). unfold after_steps. apply Forall_app; split; [steps; now apply step_text|].
  apply Forall_app; split; [eapply good_ostep; [exact B|]; intros x P; now apply step_text|].
  eapply good_ostep; [exact C|]; intros x P; now apply step_sampling.
Qed.
Lemma description_arrives n d : good_description' d -> arrives (S (S (S n))) (description_xml d) (steps_payload (description_steps d)).
Proof.
  intros G.
  assert (X : description_xml d = node "oadrReportDescription" (map fst (description_steps d))).
  { unfold description_xml, description_steps, before_steps, after_steps. rewrite !map_app, !map_ostep. repeat rewrite <- app_assoc. reflexivity. }
  rewrite X. apply arrives_node; [unfold description_steps, before_steps; discriminate| |].
  - unfold description_steps. apply Forall_app; split; [now apply good_before|]. apply Forall_app; split; [|now apply good_after].
    eapply good_ostep; [apply G|]. intros m M. destruct (namespace_keyed (m_name m)) as [K K2]; [apply M|].
    apply step_dict; try assumption; [apply measurement_compact | now apply measurement_arrives].
  - destruct G as (_ & _ & _ & _ & M & _). unfold description_steps, before_steps, after_steps.
    destruct (rd_measurement d) as [m|].
    + destruct M as [M _]. unfold steps_fresh.
      destruct (nonempty_text (rd_mrid d)), (rd_source d), (nonempty_text (rd_market d)), (rd_sampling d);
      cbn [app ostep map flat_map fst snd xml_name leaf node measurement_xml source_xml subject_part sampling_xml];
      (revert M; generalize (m_name m) as k; intros k I; clear - I; simpl in I; repeat (destruct I as [<-|I]; [reflexivity|]); contradiction).
    + destruct (nonempty_text (rd_mrid d)), (rd_source d), (nonempty_text (rd_market d)), (rd_sampling d); reflexivity.
Qed.
Lemma before_unmeasured d : unmeasured (steps_payload (before_steps d)) = true.
Proof. unfold before_steps. destruct (nonempty_text (rd_mrid d)), (rd_source d); reflexivity. Qed.
Lemma after_unmeasured d : unmeasured (steps_payload (after_steps d)) = true.
Proof. unfold after_steps. destruct (nonempty_text (rd_market d)), (rd_sampling d); reflexivity. Qed.
Lemma steps_payload_app a b : steps_payload (a ++ b)%list = (steps_payload a ++ steps_payload b)%list.
Proof. apply flat_map_app. Qed.
Lemma measured_description d : good good_measurement (rd_measurement d) ->
  measured (VDict (steps_payload (description_steps d))) = Ok (match rd_measurement d with Some m => Some (VDict (description_members d m)) | None => None end).
Proof.
  intros G. unfold description_steps. rewrite !steps_payload_app. destruct (rd_measurement d) as [m|]; cbn [ostep].
  - unfold steps_payload at 2. cbn [flat_map snd app]. rewrite (measured_mid _ _ m (before_unmeasured d) (after_unmeasured d) G). reflexivity.
  - cbn [app]. apply measured_none. unfold unmeasured. rewrite forallb_app. apply andb_true_iff. split; [apply before_unmeasured|apply after_unmeasured].
Qed.
Fixpoint offered (l : list description) : list vdict :=
  match l with
  | [] => []
  | s :: r => match rd_measurement s with
              | Some m => description_members s m :: offered r
              | None => map (fun s => steps_payload (description_steps s)) (s :: r)
              end
  end.
Lemma measured_descriptions l : Forall good_description' l ->
  measured_all (map VDict (map (fun s => steps_payload (description_steps s)) l)) = Ok (map VDict (offered l)).
Proof.
  induction l as [|s l IH]; intros F; [reflexivity|]. inversion F as [|? ? G F']; subst. cbn [map measured_all].
  rewrite measured_description by apply G. cbn [bind offered]. destruct (rd_measurement s); [|reflexivity].
  rewrite IH by assumption. reflexivity.
Qed.
Lemma description_members_stable n d m : good_description' d -> rd_measurement d = Some m -> stable num (S (S (S n))) (description_members d m).
Proof.
  intros G E. assert (M : good_measurement m) by (destruct G as (_ & _ & _ & _ & M & _); now rewrite E in M).
  apply stable_intro.
  - unfold description_members. apply Forall_app; split; [rewrite <- blocks_payload_ones; now apply fixed_ones, good_before|].
    apply Forall_app; split; [rewrite <- blocks_payload_ones; now apply fixed_ones, good_after|]. steps.
    apply fixed_dict; try reflexivity; [apply measurement_members_compact|now apply measurement_members_stable].
  - unfold description_members, before_steps, after_steps. destruct (nonempty_text (rd_mrid d)), (rd_source d), (nonempty_text (rd_market d)), (rd_sampling d); reflexivity.
Qed.
Lemma offered_stable n l : Forall good_description' l -> Forall (stable num (S (S (S n)))) (offered l).
Proof.
  induction l as [|s l IH]; intros F; [constructor|]. inversion F as [|? ? G F']; subst. cbn [offered].
  destruct (rd_measurement s) as [m|] eqn:E.
  - constructor; [|now apply IH]. now apply description_members_stable.
  - apply Forall_map. eapply Forall_impl; [|exact F]. intros x Gx. now apply description_arrives.
Qed.
Lemma adds_descriptions n l : Forall good_description' l -> l <> [] ->
  adds num (S (S (S n))) ("oadrReportDescription", one_or_list (map to_val (map description_xml l))) [("report_descriptions", VList (map VDict (offered l)))].
Proof.
  intros G N d D.
  rewrite (entry_value num _ d _ _ (one_or_list (map VDict (map (fun s => steps_payload (description_steps s)) l)))); [|reflexivity|].
  2:{ apply value_many; [|destruct l; [contradiction|discriminate]]. clear N D d. induction G; [constructor|]. constructor; [now apply description_arrives|assumption]. }
  change (fkey "oadrReportDescription") with "report_description".
  change (fkey (fst ("oadrReportDescription", one_or_list (map to_val (map description_xml l))))) with "report_description" in D. cbn [map fst] in D.
  assert (D1 : vget "report_description" d = None) by (apply D; now left).
  assert (D2 : vget "report_descriptions" d = None) by (apply D; right; now left).
  pose proof (measured_descriptions l G) as M.
  assert (T : finish num "report_description" (one_or_list (map VDict (map (fun s => steps_payload (description_steps s)) l))) d
              = bind (measured_all (map VDict (map (fun s => steps_payload (description_steps s)) l)))
                  (fun r => Ok (vset "report_descriptions" (VList r) (vdel "report_description" (vset "report_description" (one_or_list (map VDict (map (fun s => steps_payload (description_steps s)) l))) d))))).
  { destruct l as [|s [|s2 l]]; [contradiction| |]; reflexivity. }
  rewrite T, M. cbn [bind]. rewrite (vset_absent "report_description"), vdel_last, vset_absent by assumption. reflexivity.
Qed.

(** ** An offer *)
Definition offer_before (o : offer) : list (xml * vdict) :=
  ostep (fun p => node "duration" [leaf "duration" (timedeltaformat p)]) (fun p => [("duration", VDur p)]) (of_duration o).
Definition offer_after (o : offer) : list (xml * vdict) :=
  [(leaf "reportRequestID" "0", [("report_request_id", VInt 0)]); (leaf "reportSpecifierID" (of_specifier o), [("report_specifier_id", VStr (of_specifier o))]);
   (leaf "reportName" (of_name o), [("report_name", VStr (of_name o))]); (leaf "createdDateTime" (show_time (of_created o)), [("created_date_time", read_time (of_created o))])].
Definition descriptions_block (l : list description) : block :=
  mk_block "oadrReportDescription" (map description_xml l) [("report_descriptions", VList (map VDict (offered l)))].
Definition offer_blocks (o : offer) : list block := (ones (offer_before o) ++ [descriptions_block (of_descriptions o)] ++ ones (offer_after o))%list.
Definition good_offer' (o : offer) : Prop :=
  good good_duration (of_duration o) /\ Forall good_description' (of_descriptions o) /\ plain (of_specifier o) /\ plain (of_name o) /\ good_time (of_created o).
Lemma offer_arrives n o : good_offer' o -> arrives (S (S (S (S n)))) (offer_xml o) (blocks_payload (offer_blocks o)).
Proof.
  intros (A & B & C & D & E).
  assert (S1 : Forall (good_step (S (S (S n)))) (offer_before o)) by (eapply good_ostep; [exact A|]; intros x P; now apply step_duration).
  assert (S2 : Forall (good_step (S (S (S n)))) (offer_after o)).
  { steps; [|now apply step_text|now apply step_text|now apply step_time]. change "0" with (str_of_Z 0). now apply step_int. }
  assert (X : offer_xml o = node "oadrReport" (blocks_xmls (offer_blocks o))).
  { unfold offer_xml, offer_blocks. rewrite !blocks_xmls_app, !blocks_xmls_ones. unfold offer_before. rewrite map_ostep.
    cbn [blocks_xmls flat_map descriptions_block b_xmls]. now rewrite app_nil_r. }
  rewrite X. apply blocks_arrive.
  - intros H. apply (f_equal (@length _)) in H. unfold offer_blocks in H. rewrite !blocks_xmls_app, !app_length, !blocks_xmls_ones in H. cbn in H. lia.
  - unfold offer_blocks. apply Forall_app; split; [now apply good_ones|]. apply Forall_app; split; [|now apply good_ones]. steps.
    split; [apply Forall_map, Forall_forall; reflexivity|].
    unfold descriptions_block, block_steps. cbn [b_xmls b_name b_members]. destruct (of_descriptions o) as [|d l]; [constructor|]. cbn [map]. constructor; [|constructor].
    exact (adds_descriptions n (d :: l) B ltac:(discriminate)).
  - unfold offer_blocks, offer_before, descriptions_block. destruct (of_duration o), (of_descriptions o); reflexivity.
  - unfold offer_blocks. apply fixed_app; [now apply fixed_ones|]. apply fixed_app; [|now apply fixed_ones].
    unfold descriptions_block, blocks_payload, block_steps. cbn [flat_map b_xmls b_name b_members].
    destruct (of_descriptions o) as [|d l]; [constructor|]. cbn [map app concat snd]. constructor; [|constructor].
    apply (fixed_list num _ "report_descriptions" (offered (d :: l))); [reflexivity|reflexivity|]. now apply offered_stable.
  - unfold offer_blocks, offer_before, descriptions_block. destruct (of_duration o), (of_descriptions o); reflexivity.
Qed.
Definition offers_block (os : list offer) : block :=
  mk_block "oadrReport" (map offer_xml os) [("reports", VList (map VDict (map (fun o => blocks_payload (offer_blocks o)) os)))].
Definition register_report_blocks (q : string) (os : list offer) (ven_id : option string) : list block :=
  (ones [(leaf "requestID" q, [("request_id", VStr q)])] ++ [offers_block os] ++ ones (ostep (leaf "venID") (fun v => [("ven_id", VStr v)]) ven_id))%list.
Lemma register_report_parsed n q os ven_id : plain q -> Forall good_offer' os -> good plain ven_id ->
  parse_payload num (S (S (S (S (S n))))) (register_report_xml q os ven_id) = Ok (blocks_payload (register_report_blocks q os ven_id)).
Proof.
  intros Q G V.
  assert (X : register_report_xml q os ven_id = Elem "oadrRegisterReport" message_attrs "" (blocks_xmls (register_report_blocks q os ven_id))).
  { unfold register_report_xml, register_report_blocks. rewrite !blocks_xmls_app, !blocks_xmls_ones, map_ostep. cbn [blocks_xmls flat_map offers_block b_xmls]. now rewrite app_nil_r. }
  rewrite X. apply blocks_parsed.
  - unfold register_report_blocks. apply Forall_app; split; [apply good_ones; steps; now apply step_text|].
    apply Forall_app; split; [|apply good_ones; eapply good_ostep; [exact V|]; intros v P; now apply step_text]. steps.
    split; [apply Forall_map, Forall_forall; reflexivity|].
    assert (F : Forall2 (arrives (S (S (S (S n))))) (map offer_xml os) (map (fun o => blocks_payload (offer_blocks o)) os)).
    { clear - G. induction G; [constructor|]. constructor; [now apply offer_arrives|assumption]. }
    unfold offers_block, block_steps. cbn [b_xmls b_name b_members]. destruct os as [|o os]; [constructor|]. cbn [map]. constructor; [|constructor].
    exact (adds_plural num _ "oadrReport" "report" _ _ eq_refl eq_refl eq_refl F ltac:(discriminate)).
  - unfold register_report_blocks, offers_block. destruct os, ven_id; reflexivity.
Qed.
End Offer.
