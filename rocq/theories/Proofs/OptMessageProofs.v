(** What arrives of the opt messages (C69). *)
From Coq Require Import ZArith String Ascii List Bool Lia Arith.
From Verif.Base Require Import Result Dict PyStr ListExtra.
From Verif.Model Require Import Duration DateTime Text Normalize Xml XmlParty XmlOpt.
From Verif.Spec Require Import TextSpec MessageSpec PartySpec OptSpec.
From Verif.Proofs Require Import TextProofs NormalizeProofs MessageProofs ArrivalProofs BlockProofs PartyProofs.
Import ListNotations.
Local Open Scope string_scope.

Lemma full_is_good t : full_target t -> good_target t.
Proof. intros F k f I. specialize (F k f I). unfold good in *. clear I. destruct (f t); cbn in *; [now right|exact F]. Qed.
Lemma plain_nonempty s : plain s -> s <> "".
Proof. intros ((N & _) & _) ->. now apply N. Qed.
Lemma target_xmls_full name f t : good plain (f t) -> target_xmls name f [t] = opt (leaf name) (f t).
Proof. unfold target_xmls. cbn [flat_map]. destruct (f t) as [[|c s]|]; cbn [opt app]; intros G; try reflexivity. now apply plain_nonempty in G. Qed.
Lemma opt_target_event t : full_target t -> opt_target_xml t = event_target_xml [t].
Proof.
  intros F. unfold opt_target_xml, event_target_xml. rewrite !target_xmls_full; [reflexivity|..].
  - apply (F "party_id"). unfold kinds. simpl. tauto.
  - apply (F "ven_id"). unfold kinds. simpl. tauto.
  - apply (F "resource_id"). unfold kinds. simpl. tauto.
  - apply (F "group_name"). unfold kinds. simpl. tauto.
  - apply (F "group_id"). unfold kinds. simpl. tauto.
Qed.

Section Opt.
Context (num : numbers).
Local Notation arrives := (arrives num).
Local Notation good_step := (good_step num).
Local Notation adds := (adds num).
Ltac steps := repeat (apply Forall_cons; [|]); try apply Forall_nil.

(** ** Availability *)
Definition properties_part (c : datetime * Z) : xml := node "properties" [node "dtstart" [leaf "date-time" (show_time (fst c))]; node "duration" [leaf "duration" (timedeltaformat (snd c))]].
Lemma available_arrives n c : good_component c -> arrives (S (S (S n))) (available_xml c) [("properties", VDict (interval_members c))].
Proof.
  intros [T U].
  assert (A : arrives (S (S n)) (properties_part c) (interval_members c)).
  { apply (arrives_node num (S n) "properties" [(node "dtstart" [leaf "date-time" (show_time (fst c))], [("dtstart", read_time (fst c))]);
      (node "duration" [leaf "duration" (timedeltaformat (snd c))], [("duration", VDur (snd c))])]); [discriminate| |reflexivity].
    steps; [now apply step_dtstart|now apply step_duration]. }
  apply (arrives_node num (S (S n)) "available" [(properties_part c, [("properties", VDict (interval_members c))])]); [discriminate| |reflexivity]. steps. now apply step_dict.
Qed.
(** One component and several take different shapes. *)
Definition available_val (cs : list (datetime * Z)) : val :=
  match cs with
  | [c] => VDict (interval_members c)
  | _ => VList (map VDict (map (fun c => [("properties", VDict (interval_members c))]) cs))
  end.
Definition components_val (cs : list (datetime * Z)) : val := match cs with [] => VNone | _ => VDict [("available", available_val cs)] end.
Lemma adds_available n cs : cs <> [] -> Forall good_component cs ->
  adds (S (S (S n))) ("available", one_or_list (map to_val (map available_xml cs))) [("available", available_val cs)].
Proof.
  intros N F.
  assert (A : Forall2 (arrives (S (S (S n)))) (map available_xml cs) (map (fun c => [("properties", VDict (interval_members c))]) cs)).
  { clear N. induction F; constructor; [now apply available_arrives|assumption]. }
  apply (adds_general num _ "available" _ (one_or_list (map VDict (map (fun c => [("properties", VDict (interval_members c))]) cs))) (Some (available_val cs))); [reflexivity|reflexivity| |].
  - apply value_many; [exact A|]. destruct cs; [contradiction|discriminate].
  - destruct cs as [|c [|c2 cs]]; [contradiction|reflexivity|reflexivity].
Qed.
Definition components_part (cs : list (datetime * Z)) : xml := node "components" (map available_xml cs).
Lemma adds_components n cs : Forall good_component cs -> adds (S (S (S (S n)))) ("components", to_val (components_part cs)) [("components", components_val cs)].
Proof.
  intros F. destruct cs as [|c cs].
  - apply (adds_general num _ "components" _ VNone (Some VNone)); reflexivity.
  - apply (adds_general num _ "components" _ (VDict [("available", available_val (c :: cs))]) (Some (components_val (c :: cs)))); [reflexivity|reflexivity| |reflexivity].
    set (b := mk_block "available" (map available_xml (c :: cs)) [("available", available_val (c :: cs))]).
    assert (G : good_block num (S (S (S n))) b).
    { split; [apply Forall_map, Forall_forall; reflexivity|]. constructor; [|constructor]. apply adds_available; [discriminate|exact F]. }
    assert (X : components_part (c :: cs) = node "components" (blocks_xmls [b])) by (unfold blocks_xmls; cbn [flat_map]; now rewrite app_nil_r).
    destruct (blocks_read num (S (S (S n))) "components" [b]) as (its & E & R); [discriminate|constructor; [exact G|constructor]|reflexivity|].
    rewrite X, E. cbn [value_of]. rewrite R. reflexivity.
Qed.
Definition availability_part (cs : list (datetime * Z)) : xml := node "vavailability" [components_part cs].
Lemma adds_availability n cs : Forall good_component cs -> adds (S (S (S (S (S n))))) ("vavailability", to_val (availability_part cs)) [("vavailability", VDict [("components", components_val cs)])].
Proof.
  intros F.
  apply (adds_general num _ "vavailability" _ (VDict [("components", components_val cs)]) (Some (VDict [("components", components_val cs)]))); [reflexivity|reflexivity| |reflexivity].
  set (b := mk_block "components" [components_part cs] [("components", components_val cs)]).
  assert (G : good_block num (S (S (S (S n)))) b).
  { split; [constructor; [reflexivity|constructor]|]. constructor; [|constructor]. now apply adds_components. }
  destruct (blocks_read num (S (S (S (S n)))) "vavailability" [b]) as (its & E & R); [discriminate|constructor; [exact G|constructor]|reflexivity|].
  change (availability_part cs) with (node "vavailability" (blocks_xmls [b])). rewrite E. cbn [value_of]. rewrite R. reflexivity.
Qed.

(** ** The message *)
Definition device_part (m : string) : xml := node "oadrDeviceClass" [node "endDeviceAsset" [leaf "mrid" m]].
Lemma step_device n s : plain s -> good_step (S (S n)) (device_part s, [("device_class", VDict [("end_device_asset", VDict [("mrid", VStr s)])])]).
Proof.
  intros P.
  assert (A : arrives (S n) (node "endDeviceAsset" [leaf "mrid" s]) [("mrid", VStr s)]).
  { apply (arrives_node num n "endDeviceAsset" [(leaf "mrid" s, [("mrid", VStr s)])]); [discriminate| |reflexivity]. steps. now apply step_text. }
  assert (B : arrives (S (S n)) (device_part s) [("end_device_asset", VDict [("mrid", VStr s)])]).
  { apply (arrives_node num (S n) "oadrDeviceClass" [(node "endDeviceAsset" [leaf "mrid" s], [("end_device_asset", VDict [("mrid", VStr s)])])]); [discriminate| |reflexivity].
    steps. apply (step_intro num _ _ "end_device_asset" (VDict [("mrid", VStr s)])); try reflexivity; [now apply value_arrives|apply value_stable, A]. }
  apply (step_intro num _ _ "device_class" (VDict [("end_device_asset", VDict [("mrid", VStr s)])])); try reflexivity; [now apply value_arrives|apply value_stable, B].
Qed.

Definition head_steps (ven_id : string) (o : opt_message) : list (xml * vdict) :=
  ([(leaf "optID" (om_id o), [("opt_id", VStr (om_id o))]); (leaf "optType" (om_type o), [("opt_type", VStr (om_type o))]); (leaf "optReason" (om_reason o), [("opt_reason", VStr (om_reason o))])]
   ++ ostep (leaf "marketContext") (fun s => [("market_context", VStr s)]) (om_market o) ++ [(leaf "venID" ven_id, [("ven_id", VStr ven_id)])])%list.
Definition availability_blocks (o : opt_message) : list block :=
  match om_availability o with Some cs => [mk_block "vavailability" [availability_part cs] [("vavailability", VDict [("components", components_val cs)])]] | None => [] end.
Definition middle_steps (request_id : string) (o : opt_message) : list (xml * vdict) :=
  ([(leaf "createdDateTime" (show_time (om_created o)), [("created_date_time", read_time (om_created o))]); (leaf "requestID" request_id, [("request_id", VStr request_id)])]
   ++ ostep (fun e => node "qualifiedEventID" [leaf "eventID" (fst e); leaf "modificationNumber" (str_of_Z (snd e))])
        (fun e => [("event_id", VStr (fst e)); ("modification_number", VInt (snd e))]) (om_event o))%list.
Definition before_targets (request_id ven_id : string) (o : opt_message) : list block :=
  (ones (head_steps ven_id o) ++ availability_blocks o ++ ones (middle_steps request_id o))%list.
Definition device_steps (o : opt_message) : list (xml * vdict) :=
  ostep device_part (fun m => [("device_class", VDict [("end_device_asset", VDict [("mrid", VStr m)])])]) (om_mrid o).
Definition targets_block (o : opt_message) : block := mk_block "eiTarget" (opt_targets_xml (om_targets o)) (target_members (om_targets o)).
Definition opt_blocks (request_id ven_id : string) (o : opt_message) : list block :=
  (before_targets request_id ven_id o ++ [targets_block o] ++ ones (device_steps o))%list.

Lemma opt_xml_blocks request_id ven_id o : create_opt_xml request_id ven_id o = Elem "oadrCreateOpt" message_attrs "" (blocks_xmls (opt_blocks request_id ven_id o)).
Proof.
  unfold create_opt_xml, opt_blocks, before_targets. rewrite !blocks_xmls_app, !blocks_xmls_ones. unfold head_steps, middle_steps, device_steps. rewrite !map_app, !map_ostep.
  f_equal. cbn [map fst app]. rewrite <- !app_assoc. cbn [app].
  replace (blocks_xmls (availability_blocks o)) with (opt availability_part (om_availability o)) by (unfold availability_blocks; destruct (om_availability o); reflexivity).
  replace (blocks_xmls [targets_block o]) with (opt_targets_xml (om_targets o)) by (unfold blocks_xmls; cbn [flat_map]; now rewrite app_nil_r). reflexivity.
Qed.
Lemma before_good n request_id ven_id o : plain request_id -> plain ven_id -> good_opt o -> Forall (good_block num (S (S (S (S (S n)))))) (before_targets request_id ven_id o).
Proof.
  intros Q V (A & B & C & D & E & F & G & _). unfold before_targets. apply Forall_app; split; [|apply Forall_app; split].
  - apply good_ones. unfold head_steps. apply Forall_app; split; [steps; now apply step_text|]. apply Forall_app; split; [eapply good_ostep; [exact D|]; intros s P; now apply step_text|]. steps. now apply step_text.
  - unfold availability_blocks. destruct (om_availability o) as [cs|]; [|constructor]. constructor; [|constructor]. split; [constructor; [reflexivity|constructor]|].
    constructor; [|constructor]. now apply adds_availability.
  - apply good_ones. unfold middle_steps. apply Forall_app; split; [steps; [now apply step_time|now apply step_text]|]. eapply good_ostep; [exact G|]. intros e P. now apply step_qualified.
Qed.
Lemma device_good n o : good_opt o -> Forall (good_block num (S (S n))) (ones (device_steps o)).
Proof. intros (_ & _ & _ & _ & _ & _ & _ & _ & H). apply good_ones. unfold device_steps. eapply good_ostep; [exact H|]. intros s P. now apply step_device. Qed.
Lemma opt_fresh request_id ven_id o : (length (om_targets o) <= 1)%nat -> blocks_fresh (opt_blocks request_id ven_id o) = true.
Proof.
  intros L. unfold opt_blocks, before_targets, head_steps, availability_blocks, middle_steps, device_steps, targets_block.
  destruct (om_market o), (om_availability o), (om_event o), (om_mrid o), (om_targets o) as [|t [|t2 ts]]; try (cbn in L; lia); reflexivity.
Qed.
Lemma create_opt_parsed n request_id ven_id o : plain request_id -> plain ven_id -> good_opt o -> (length (om_targets o) <= 1)%nat ->
  parse_payload num (6 + n) (create_opt_xml request_id ven_id o) = Ok (blocks_payload (opt_blocks request_id ven_id o)).
Proof.
  intros Q V G L. rewrite opt_xml_blocks. apply blocks_parsed; [|now apply opt_fresh]. unfold opt_blocks. apply Forall_app; split; [now apply before_good|].
  apply Forall_app; split; [|now apply device_good]. constructor; [|constructor].
  assert (FT : Forall full_target (om_targets o)) by apply G. unfold targets_block. destruct (om_targets o) as [|t [|t2 ts]]; [| |cbn in L; lia].
  - split; [constructor; [reflexivity|constructor]|]. constructor; [|constructor]. exact (adds_target num _ [] (Forall_nil _)).
  - inversion FT as [|? ? F1 _]; subst. split; [constructor; [reflexivity|constructor]|]. constructor; [|constructor]. cbn [fst snd b_name b_members b_xmls opt_targets_xml map one_or_list].
    rewrite opt_target_event by exact F1. apply adds_target. constructor; [now apply full_is_good|constructor].
Qed.

(** ** More than one target *)
Definition kind_steps (t : target) : list (xml * vdict) :=
  (ostep (leaf "groupID") (fun s => [("group_id", VStr s)]) (t_group_id t) ++ ostep (leaf "groupName") (fun s => [("group_name", VStr s)]) (t_group_name t)
   ++ ostep (leaf "resourceID") (fun s => [("resource_id", VStr s)]) (t_resource_id t) ++ ostep (leaf "venID") (fun s => [("ven_id", VStr s)]) (t_ven_id t)
   ++ ostep (leaf "partyID") (fun s => [("party_id", VStr s)]) (t_party_id t))%list.
Lemma target_read n t : full_target t -> to_val (opt_target_xml t) = VNone \/ exists p, arrives (S n) (opt_target_xml t) p.
Proof.
  intros F. assert (E : opt_target_xml t = node "eiTarget" (map fst (kind_steps t))) by (unfold opt_target_xml, kind_steps; rewrite !map_app, !map_ostep; reflexivity).
  destruct (kind_steps t) as [|s l] eqn:K; [left; now rewrite E|right]. exists (steps_payload (kind_steps t)). rewrite E, <- K. apply arrives_node.
  - rewrite K. discriminate.
  - unfold kind_steps. apply Forall_app; split; [eapply good_ostep; [apply (F "group_id"); unfold kinds; simpl; tauto|]; intros x P; now apply step_text|].
    apply Forall_app; split; [eapply good_ostep; [apply (F "group_name"); unfold kinds; simpl; tauto|]; intros x P; now apply step_text|].
    apply Forall_app; split; [eapply good_ostep; [apply (F "resource_id"); unfold kinds; simpl; tauto|]; intros x P; now apply step_text|].
    apply Forall_app; split; [eapply good_ostep; [apply (F "ven_id"); unfold kinds; simpl; tauto|]; intros x P; now apply step_text|].
    eapply good_ostep; [apply (F "party_id"); unfold kinds; simpl; tauto|]; intros x P; now apply step_text.
  - unfold kind_steps. destruct (t_group_id t), (t_group_name t), (t_resource_id t), (t_ven_id t), (t_party_id t); reflexivity.
Qed.
Lemma several_targets n ts d : Forall full_target ts -> (2 <= length ts)%nat ->
  entry num (normalize num (S n)) d ("eiTarget", one_or_list (map to_val (opt_targets_xml ts))) = Raise TypeError.
Proof.
  intros F L.
  assert (V : exists l, value_of num (S n) (normalize_key "eiTarget") (VList (map to_val (map opt_target_xml ts))) = Ok (VList l) /\ length l = length ts).
  { clear L. cbn [value_of]. rewrite map_map. induction F as [|t ts Ft F IH]; [exists []; now split|]. destruct IH as (l & E & Ll). cbn [map mapM]. 
    destruct (target_read n t Ft) as [N|(p & (its & R & P) & S)].
    - rewrite N. cbn [bind]. destruct (mapM _ _) as [l'|] in E |- *; [|discriminate E]. cbn [bind] in *. injection E as ->. exists (VNone :: l). split; [reflexivity|]. cbn. now rewrite Ll.
    - rewrite R. rewrite P. cbn [bind]. unfold stable in S. rewrite S. cbn [bind]. destruct (mapM _ _) as [l'|] in E |- *; [|discriminate E]. cbn [bind] in *. injection E as ->.
      exists (VDict p :: l). split; [reflexivity|]. cbn. now rewrite Ll. }
  destruct V as (l & V & Ll). destruct ts as [|t [|t2 ts]]; [cbn in L; lia|cbn in L; lia|]. cbn [opt_targets_xml].
  replace (one_or_list (map to_val (map opt_target_xml (t :: t2 :: ts)))) with (VList (map to_val (map opt_target_xml (t :: t2 :: ts)))) by reflexivity.
  rewrite (entry_value num (S n) d _ _ (VList l)); [|reflexivity|exact V]. change (fkey "eiTarget") with "target". unfold finish. cbn [String.eqb Ascii.eqb Bool.eqb].
  destruct l as [|x l]; [discriminate|]. reflexivity.
Qed.
Lemma create_opt_several n request_id ven_id o : plain request_id -> plain ven_id -> good_opt o -> (2 <= length (om_targets o))%nat ->
  parse_payload num (6 + n) (create_opt_xml request_id ven_id o) = Raise TypeError.
Proof.
  intros Q V G L. rewrite opt_xml_blocks. unfold parse_payload. rewrite message_items.
  assert (T : opt_targets_xml (om_targets o) <> []) by (destruct (om_targets o); discriminate).
  rewrite push_blocks.
  - cbn [app]. change (6 + n)%nat with (S (5 + n)). rewrite skip_attribute. unfold opt_blocks. rewrite !flat_map_app, !map_app. cbn [normalize].
    rewrite foldM_app, (run_from num (5 + n) _ [] []).
    + cbn [bind app]. rewrite foldM_app. replace (foldM (entry num (normalize num (5 + n))) (map fst (flat_map block_steps [targets_block o])) (concat (map snd (flat_map block_steps (before_targets request_id ven_id o))))) with (@Raise vdict TypeError); [reflexivity|].
      assert (B : block_steps (targets_block o) = [(("eiTarget", one_or_list (map to_val (opt_targets_xml (om_targets o)))), target_members (om_targets o))]) by (unfold block_steps, targets_block; cbn [b_xmls b_name b_members]; destruct (opt_targets_xml (om_targets o)); [contradiction|reflexivity]).
      symmetry. cbn [flat_map]. rewrite B. cbn [app map fst foldM].
      rewrite (several_targets (4 + n)); [reflexivity|apply G|exact L].
    + intros k [].
    + apply Forall_flat_map. eapply Forall_impl; [|now apply (before_good n)]. intros b B. exact (proj2 B).
    + unfold before_targets, head_steps, availability_blocks, middle_steps. destruct (om_market o), (om_availability o), (om_event o); reflexivity.
  - unfold opt_blocks. apply Forall_app; split; [eapply Forall_impl; [|now apply (before_good n)]; intros b B; exact (proj1 B)|].
    apply Forall_app; split; [|eapply Forall_impl; [|now apply (device_good n)]; intros b B; exact (proj1 B)].
    constructor; [|constructor]. unfold targets_block. cbn [b_xmls b_name]. unfold opt_targets_xml. destruct (om_targets o); [constructor; [reflexivity|constructor]|]. apply Forall_map, Forall_forall. reflexivity.
  - unfold opt_blocks, before_targets, head_steps, availability_blocks, middle_steps, device_steps. apply nodupb_spec.
    destruct (om_market o), (om_availability o), (om_event o), (om_mrid o); reflexivity.
Qed.

(** ** The other messages *)
Lemma opt_answer_parsed n name r id : good_answer r -> plain id ->
  parse_payload num (S (S n)) (opt_answer_xml name r id) = Ok [("response", VDict (answer_members r (VStr (printed (an_request_id r))))); ("opt_id", VStr id)].
Proof.
  intros R P. apply (plain_steps_parsed num (S n) name [(answer_xml r, [("response", VDict (answer_members r (VStr (printed (an_request_id r)))))]); (leaf "optID" id, [("opt_id", VStr id)])]); [|reflexivity].
  steps; [now apply step_answer|now apply step_text].
Qed.
Lemma cancel_opt_parsed n id v : plain id -> plain v -> parse_payload num (S n) (cancel_opt_xml id v) = Ok [("request_id", VNone); ("opt_id", VStr id); ("ven_id", VStr v)].
Proof.
  intros P V. apply (plain_steps_parsed num n "oadrCancelOpt" [(leaf "requestID" "", [("request_id", VNone)]); (leaf "optID" id, [("opt_id", VStr id)]); (leaf "venID" v, [("ven_id", VStr v)])]); [|reflexivity].
  steps; [now apply step_none|now apply step_text|now apply step_text].
Qed.
End Opt.
