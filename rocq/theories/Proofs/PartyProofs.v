(** What arrives of registration messages, report requests and short messages. *)
From Coq Require Import ZArith String Ascii List Bool Lia Arith.
From Verif.Base Require Import Result Dict PyStr ListExtra.
From Verif.Model Require Import Duration DateTime Text Normalize Xml XmlParty.
From Verif.Spec Require Import TextSpec MessageSpec PartySpec.
From Verif.Proofs Require Import TextProofs NormalizeProofs MessageProofs ArrivalProofs BlockProofs.
Import ListNotations.
Local Open Scope string_scope.

Lemma none_plain : plain "None".
Proof.
  assert (O : one_line "None").
  { apply unblank_one_line; [|discriminate]. repeat (apply char_unblank; [reflexivity|]). exact I. }
  split; [exact O|]. split; [discriminate|]. split; [discriminate|]. intros L. apply looks_float_spec in L. discriminate L.
Qed.
Lemma printed_plain o : good plain o -> plain (printed o).
Proof. destruct o; [trivial|]. intros _. exact none_plain. Qed.
Lemma nonempty_given o : nonempty_text o = given o.
Proof. destruct o as [[|c s]|]; reflexivity. Qed.
Lemma good_nonempty o : good plain_or_empty o -> good plain (nonempty_text o).
Proof. destruct o as [[|c s]|]; cbn; try trivial. intros [H|H]; [discriminate|exact H]. Qed.

Section Party.
Context (num : numbers).
Local Notation arrives := (arrives num).
Local Notation good_step := (good_step num).

Ltac steps := repeat (apply Forall_cons; [|]); try apply Forall_nil.

(** ** The answer *)
Definition answer_members (r : answer) (q : val) : vdict :=
  [("response_code", VInt (an_code r)); ("response_description", VStr (an_description r)); ("request_id", q)].
Lemma step_answer n r : good_answer r -> good_step (S n) (answer_xml r, [("response", VDict (answer_members r (VStr (printed (an_request_id r)))))]).
Proof.
  intros [D R]. apply printed_plain in R. apply step_dict; try reflexivity.
  apply (arrives_node num n "eiResponse" [(leaf "responseCode" (str_of_Z (an_code r)), [("response_code", VInt (an_code r))]);
    (leaf "responseDescription" (an_description r), [("response_description", VStr (an_description r))]);
    (leaf "requestID" (printed (an_request_id r)), [("request_id", VStr (printed (an_request_id r)))])]); [discriminate| |reflexivity].
  steps; [now apply step_int|now apply step_text|now apply step_text].
Qed.
Definition tested (o : option string) : val := match o with Some s => VStr s | None => VNone end.
Lemma step_answer_tested n r : good_answer r -> good_step (S n) (answer_tested_xml r, [("response", VDict (answer_members r (tested (an_request_id r))))]).
Proof.
  intros [D R]. apply step_dict; try reflexivity.
  apply (arrives_node num n "eiResponse" [(leaf "responseCode" (str_of_Z (an_code r)), [("response_code", VInt (an_code r))]);
    (leaf "responseDescription" (an_description r), [("response_description", VStr (an_description r))]);
    (leaf "requestID" (match an_request_id r with Some s => s | None => "" end), [("request_id", tested (an_request_id r))])]); [discriminate| |reflexivity].
  steps; [now apply step_int|now apply step_text|]. destruct (an_request_id r); [now apply step_text|now apply step_none].
Qed.

(** ** Registration *)
Definition party_steps (request_id : string) (p : party) : list (xml * vdict) :=
  ([(leaf "requestID" request_id, [("request_id", VStr request_id)])]
   ++ ostep (leaf "registrationID") (fun s => [("registration_id", VStr s)]) (pt_registration_id p)
   ++ ostep (leaf "venID") (fun s => [("ven_id", VStr s)]) (pt_ven_id p)
   ++ [(leaf "oadrProfileName" (pt_profile p), [("profile_name", VStr (pt_profile p))]); (leaf "oadrTransportName" (pt_transport p), [("transport_name", VStr (pt_transport p))]);
       (leaf "oadrTransportAddress" (printed (pt_address p)), [("transport_address", VStr (printed (pt_address p)))]);
       (leaf "oadrReportOnly" (show_bool (pt_report_only p)), [("report_only", VBool (pt_report_only p))]);
       (leaf "oadrXmlSignature" (show_bool (pt_xml_signature p)), [("xml_signature", VBool (pt_xml_signature p))]);
       (leaf "oadrVenName" (pt_ven_name p), [("ven_name", VStr (pt_ven_name p))]);
       (leaf "oadrHttpPullModel" (show_bool (pt_pull p)), [("http_pull_model", VBool (pt_pull p))])])%list.
Lemma create_party_parsed n request_id p : plain request_id -> good_party p ->
  parse_payload num (S n) (create_party_xml request_id p) = Ok (steps_payload (party_steps request_id p)).
Proof.
  intros Q (A & B & C & D & E & F). apply printed_plain in E.
  assert (X : create_party_xml request_id p = Elem "oadrCreatePartyRegistration" message_attrs "" (blocks_xmls (ones (party_steps request_id p)))).
  { rewrite blocks_xmls_ones. unfold create_party_xml, party_steps. rewrite !map_app, !map_ostep. reflexivity. }
  rewrite X, <- blocks_payload_ones. apply blocks_parsed.
  - apply good_ones. unfold party_steps. apply Forall_app; split; [steps; now apply step_text|].
    apply Forall_app; split; [eapply good_ostep; [exact A|]; intros s P; now apply step_text|].
    apply Forall_app; split; [eapply good_ostep; [exact B|]; intros s P; now apply step_text|].
    steps; try (now apply step_text); now apply step_bool.
  - unfold party_steps. destruct (pt_registration_id p), (pt_ven_id p); reflexivity.
Qed.

Lemma transport_arrives n t : plain t -> arrives (S n) (transport_xml t) [("transport_name", VStr t)].
Proof. intros P. apply (arrives_node num n "oadrTransport" [(leaf "oadrTransportName" t, [("transport_name", VStr t)])]); [discriminate| |reflexivity]. steps. now apply step_text. Qed.
Definition list_or_none (ps : list vdict) : val := match ps with [] => VNone | _ => VList (map VDict ps) end.
Lemma step_transports n ts : Forall plain ts ->
  good_step (S (S n)) (node "oadrTransports" (map transport_xml ts), [("transports", list_or_none (map (fun t => [("transport_name", VStr t)]) ts))]).
Proof.
  intros F. destruct ts as [|t ts]; [now apply (step_none num (S (S n)) "oadrTransports" "transports")|].
  apply (step_wrapper' num (S n) "oadrTransports" "oadrTransport" "transport" "transports"); try reflexivity.
  - apply Forall_map, Forall_forall. reflexivity.
  - discriminate.
  - revert F. generalize (t :: ts). intros l F. induction F; constructor; [now apply transport_arrives|assumption].
  - apply Forall_map, Forall_forall. reflexivity.
Qed.
Definition profile_steps (p : profile) : list (xml * vdict) :=
  [(leaf "oadrProfileName" (pf_name p), [("profile_name", VStr (pf_name p))]);
   (node "oadrTransports" (map transport_xml (pf_transports p)), [("transports", list_or_none (map (fun t => [("transport_name", VStr t)]) (pf_transports p)))])].
Lemma profile_arrives n p : good_profile p -> arrives (S (S (S n))) (profile_xml p) (steps_payload (profile_steps p)).
Proof. intros [A B]. apply (arrives_node num (S (S n)) "oadrProfile" (profile_steps p)); [discriminate| |reflexivity]. steps; [now apply step_text|now apply step_transports]. Qed.
Lemma step_profiles n ps : Forall good_profile ps ->
  good_step (S (S (S (S n)))) (node "oadrProfiles" (map profile_xml ps), [("profiles", list_or_none (map (fun p => steps_payload (profile_steps p)) ps))]).
Proof.
  intros F. destruct ps as [|p ps]; [now apply (step_none num _ "oadrProfiles" "profiles")|].
  apply (step_wrapper num (S (S (S n))) "oadrProfiles" "oadrProfile" "profile" "profiles"); try reflexivity.
  - apply Forall_map, Forall_forall. reflexivity.
  - discriminate.
  - revert F. generalize (p :: ps). intros l F. induction F; constructor; [now apply profile_arrives|assumption].
  - apply Forall_map, Forall_forall. reflexivity.
Qed.
Definition created_party_steps (r : answer) (c : created_party) : list (xml * vdict) :=
  ([(answer_xml r, [("response", VDict (answer_members r (VStr (printed (an_request_id r)))))]);
    (leaf "registrationID" (text_or_empty (cp_registration_id c)), [("registration_id", tested (cp_registration_id c))]);
    (leaf "venID" (text_or_empty (cp_ven_id c)), [("ven_id", tested (cp_ven_id c))]); (leaf "vtnID" (cp_vtn_id c), [("vtn_id", VStr (cp_vtn_id c))]);
    (node "oadrProfiles" (map profile_xml (cp_profiles c)), [("profiles", list_or_none (map (fun p => steps_payload (profile_steps p)) (cp_profiles c)))])]
   ++ ostep (fun p => node "oadrRequestedOadrPollFreq" [leaf "duration" (timedeltaformat p)]) (fun p => [("requested_oadr_poll_freq", VDur p)]) (cp_poll_freq c))%list.
Lemma created_party_parsed n r c : good_answer r -> good_created_party c ->
  parse_payload num (S (S (S (S (S n))))) (created_party_xml r c) = Ok (steps_payload (created_party_steps r c)).
Proof.
  intros R (A & B & C & D & E).
  assert (X : created_party_xml r c = Elem "oadrCreatedPartyRegistration" message_attrs "" (blocks_xmls (ones (created_party_steps r c)))).
  { rewrite blocks_xmls_ones. unfold created_party_xml, created_party_steps. rewrite !map_app, !map_ostep. reflexivity. }
  rewrite X, <- blocks_payload_ones. apply blocks_parsed.
  - apply good_ones. unfold created_party_steps. apply Forall_app; split.
    + steps; [now apply step_answer|destruct (cp_registration_id c); [now apply step_text|now apply step_none]|destruct (cp_ven_id c); [now apply step_text|now apply step_none]|
        now apply step_text|now apply step_profiles].
    + eapply good_ostep; [exact E|]. intros p P. now apply step_duration.
  - unfold created_party_steps. destruct (cp_poll_freq c); reflexivity.
Qed.

Lemma plain_steps_parsed n name (steps : list (xml * vdict)) : Forall (good_step n) steps -> blocks_fresh (ones steps) = true ->
  parse_payload num (S n) (Elem name message_attrs "" (map fst steps)) = Ok (steps_payload steps).
Proof. intros F B. rewrite <- blocks_xmls_ones, <- blocks_payload_ones. apply blocks_parsed; [now apply good_ones|exact B]. Qed.
Lemma cancel_party_parsed n q g v : plain q -> plain g -> plain v ->
  parse_payload num (S n) (cancel_party_xml q g v) = Ok [("request_id", VStr q); ("registration_id", VStr g); ("ven_id", VStr v)].
Proof.
  intros Q G V. apply (plain_steps_parsed n "oadrCancelPartyRegistration" [(leaf "requestID" q, [("request_id", VStr q)]); (leaf "registrationID" g, [("registration_id", VStr g)]);
    (leaf "venID" v, [("ven_id", VStr v)])]); [|reflexivity]. steps; now apply step_text.
Qed.
Lemma canceled_party_parsed n r g v : good_answer r -> plain g -> plain v ->
  parse_payload num (S (S n)) (canceled_party_xml r g v) = Ok [("response", VDict (answer_members r (VStr (printed (an_request_id r))))); ("registration_id", VStr g); ("ven_id", VStr v)].
Proof.
  intros R G V. apply (plain_steps_parsed (S n) "oadrCanceledPartyRegistration" [(answer_xml r, [("response", VDict (answer_members r (VStr (printed (an_request_id r)))))]);
    (leaf "registrationID" g, [("registration_id", VStr g)]); (leaf "venID" v, [("ven_id", VStr v)])]); [|reflexivity].
  steps; [now apply step_answer|now apply step_text|now apply step_text].
Qed.
Lemma query_registration_parsed n q : plain q -> parse_payload num (S n) (query_registration_xml q) = Ok [("request_id", VStr q)].
Proof. intros Q. apply (plain_steps_parsed n "oadrQueryRegistration" [(leaf "requestID" q, [("request_id", VStr q)])]); [|reflexivity]. steps. now apply step_text. Qed.
Lemma request_reregistration_parsed n v : plain v -> parse_payload num (S n) (request_reregistration_xml v) = Ok [("ven_id", VStr v)].
Proof. intros Q. apply (plain_steps_parsed n "oadrRequestReregistration" [(leaf "venID" v, [("ven_id", VStr v)])]); [|reflexivity]. steps. now apply step_text. Qed.

(** ** Short messages *)
Lemma response_message_parsed n r v : good_answer r -> good plain v ->
  parse_payload num (S (S n)) (response_message_xml r v) = Ok [("response", VDict (answer_members r (tested (an_request_id r)))); ("ven_id", VStr (printed v))].
Proof.
  intros R V. apply printed_plain in V.
  apply (plain_steps_parsed (S n) "oadrResponse" [(answer_tested_xml r, [("response", VDict (answer_members r (tested (an_request_id r))))]); (leaf "venID" (printed v), [("ven_id", VStr (printed v))])]);
    [|reflexivity]. steps; [now apply step_answer_tested|now apply step_text].
Qed.
Lemma cancel_report_parsed n q i f v : plain q -> plain i -> plain v ->
  parse_payload num (S n) (cancel_report_xml q i f v) = Ok [("request_id", VStr q); ("report_request_id", VStr i); ("report_to_follow", VBool f); ("ven_id", VStr v)].
Proof.
  intros Q I V. apply (plain_steps_parsed n "oadrCancelReport" [(leaf "requestID" q, [("request_id", VStr q)]); (leaf "reportRequestID" i, [("report_request_id", VStr i)]);
    (leaf "reportToFollow" (show_bool f), [("report_to_follow", VBool f)]); (leaf "venID" v, [("ven_id", VStr v)])]); [|reflexivity].
  steps; try (now apply step_text); now apply step_bool.
Qed.
(** The whole payload is what is inside. *)
Lemma request_event_parsed n q v limit : plain q -> plain v ->
  parse_payload num (S (S n)) (request_event_xml q v limit)
  = Ok ([("request_id", VStr q); ("ven_id", VStr v)] ++ match limit with Some z => [("reply_limit", VInt z)] | None => [] end)%list.
Proof.
  intros Q V. set (steps := ([(leaf "requestID" q, [("request_id", VStr q)]); (leaf "venID" v, [("ven_id", VStr v)])]
    ++ ostep (fun z => leaf "replyLimit" (str_of_Z z)) (fun z => [("reply_limit", VInt z)]) limit)%list).
  assert (A : arrives (S n) (node "eiRequestEvent" (map fst steps)) (steps_payload steps)).
  { apply arrives_node; [discriminate| |].
    - unfold steps. apply Forall_app; split; [steps; now apply step_text|]. apply good_ostep'. intros z. now apply step_int.
    - unfold steps. destruct limit; reflexivity. }
  destruct A as [(its & E & R) _].
  assert (X : request_event_xml q v limit = Elem "oadrRequestEvent" message_attrs "" [node "eiRequestEvent" (map fst steps)]).
  { unfold request_event_xml, steps. rewrite map_app, map_ostep. reflexivity. }
  unfold parse_payload. rewrite X, message_items. cbn [fold_left]. rewrite push_absent by reflexivity. cbn [app]. rewrite skip_attribute, E.
  change (foldM (entry num (normalize num (S n))) [("eiRequestEvent", VDict its)] [] = Ok ([("request_id", VStr q); ("ven_id", VStr v)] ++ match limit with Some z => [("reply_limit", VInt z)] | None => [] end)%list).
  cbn [foldM]. rewrite (entry_value num (S n) [] "eiRequestEvent" (VDict its) (VDict (steps_payload steps))); [|reflexivity|cbn [value_of]; now rewrite R].
  unfold steps. destruct limit; reflexivity.
Qed.

(** ** Pending reports *)
Definition ids_ok (ids : list string) : Prop :=
  match ids with [s] => plain s \/ (exists z, s = str_of_Z z) | _ => Forall one_line ids end.
Definition pending_val (ids : list string) : val := VList (map (fun s => VDict [("report_request_id", VStr s)]) ids).
Lemma leaves_vals name l : Forall one_line l -> map to_val (map (leaf name) l) = map VStr l.
Proof. induction 1 as [|s l O F IH]; [reflexivity|]. cbn [map]. rewrite IH. cbn [to_val leaf]. now rewrite text_val_one_line. Qed.
Lemma step_adds n s kv p : good_step n s -> (xml_name (fst s), to_val (fst s)) = kv -> snd s = p -> adds num n kv p.
Proof. intros [A _] <- <-. exact A. Qed.
Lemma ids_one n z d : vget "report_request_id" d = None ->
  entry num (normalize num n) d ("reportRequestID", VStr (str_of_Z z)) = Ok (d ++ [("report_request_id", VInt z)])%list.
Proof.
  intros D. destruct (step_int num n "reportRequestID" "report_request_id" z eq_refl) as [A _]. cbn [fst snd xml_name leaf to_val] in A.
  rewrite text_val_one_line in A by apply str_of_Z_one_line. apply A. cbn [map fst]. intros k [<-|[<-|[]]]; exact D.
Qed.
Lemma adds_pending n ids : ids_ok ids ->
  adds num (S n) ("oadrPendingReports", to_val (node "oadrPendingReports" (map (leaf "reportRequestID") ids))) [("pending_reports", pending_val ids)].
Proof.
  intros G d D. change (fkey (fst ("oadrPendingReports", to_val (node "oadrPendingReports" (map (leaf "reportRequestID") ids))))) with "pending_reports" in D.
  assert (D1 : vget "pending_reports" d = None) by (apply D; now left).
  assert (V : exists v, value_of num (S n) "pending_reports" (to_val (node "oadrPendingReports" (map (leaf "reportRequestID") ids))) = Ok v /\
              tidy num "pending_reports" v (vset "pending_reports" v d) = Ok (vset "pending_reports" (pending_val ids) (vset "pending_reports" v d))).
  { destruct ids as [|s [|s2 l]].
    - exists VNone. split; reflexivity.
    - cbn [map]. destruct G as [P|[z ->]].
      + exists (VDict [("report_request_id", VStr s)]). split; [|reflexivity].
        apply value_arrives. apply (arrives_node num n "oadrPendingReports" [(leaf "reportRequestID" s, [("report_request_id", VStr s)])]); [discriminate| |reflexivity].
        steps. now apply step_text.
      + exists (VDict [("report_request_id", VInt z)]). split; [|reflexivity].
        apply value_arrives. apply (arrives_node num n "oadrPendingReports" [(leaf "reportRequestID" (str_of_Z z), [("report_request_id", VInt z)])]); [discriminate| |reflexivity].
        steps. now apply step_int.
    - cbn [ids_ok] in G. exists (VDict [("report_request_id", VList (map VStr (s :: s2 :: l)))]). split.
      + rewrite (to_val_many "oadrPendingReports" "reportRequestID"); [|apply Forall_map, Forall_forall; reflexivity|discriminate].
        rewrite (leaves_vals "reportRequestID" (s :: s2 :: l) G). cbn [value_of map one_or_list].
        pose proof (adds_general num n "reportRequestID" (VList (map VStr (s :: s2 :: l))) (VList (map VStr (s :: s2 :: l))) (Some (VList (map VStr (s :: s2 :: l)))) eq_refl eq_refl
                      (value_strs num n _ (s :: s2 :: l)) eq_refl) as A.
        pose proof (run num n [(("reportRequestID", VList (map VStr (s :: s2 :: l))), [("report_request_id", VList (map VStr (s :: s2 :: l)))])]) as R.
        cbn [map fst snd concat app] in R. cbn [map] in A. rewrite R; [reflexivity| |reflexivity]. constructor; [exact A|constructor].
      + unfold tidy. cbn [String.eqb Ascii.eqb Bool.eqb]. cbn [vget get String.eqb Ascii.eqb Bool.eqb]. unfold pending_val. do 3 f_equal. rewrite map_map. reflexivity. }
  destruct V as (v & V & T).
  rewrite (entry_value num (S n) d _ _ v); [|reflexivity|exact V]. change (fkey "oadrPendingReports") with "pending_reports".
  unfold finish. change (("pending_reports" =? "target")%string) with false. cbn iota. rewrite T.
  rewrite (vset_absent "pending_reports" v d D1), vset_last by exact D1. reflexivity.
Qed.
Definition pending_blocks (r : answer) (ids : list string) (ven_id : option string) : list block :=
  (ones [(answer_xml r, [("response", VDict (answer_members r (VStr (printed (an_request_id r)))))])]
   ++ [mk_block "oadrPendingReports" [node "oadrPendingReports" (map (leaf "reportRequestID") ids)] [("pending_reports", pending_val ids)]]
   ++ ones (ostep (leaf "venID") (fun v => [("ven_id", VStr v)]) ven_id))%list.
Lemma pending_reports_parsed n name r ids ven_id : good_answer r -> ids_ok ids -> good plain ven_id ->
  parse_payload num (S (S n)) (pending_reports_xml name r ids ven_id) = Ok (blocks_payload (pending_blocks r ids ven_id)).
Proof.
  intros R G V.
  assert (X : pending_reports_xml name r ids ven_id = Elem name message_attrs "" (blocks_xmls (pending_blocks r ids ven_id))) by (destruct ven_id; reflexivity).
  rewrite X. apply blocks_parsed.
  - unfold pending_blocks. apply Forall_app; split; [apply good_ones; steps; now apply step_answer|].
    apply Forall_app; split; [|apply good_ones; eapply good_ostep; [exact V|]; intros v P; now apply step_text].
    steps. split; cbn [b_xmls b_name b_members block_steps]; (constructor; [|constructor]); [reflexivity|]. now apply adds_pending.
  - destruct ven_id; reflexivity.
Qed.

(** ** Several texts side by side *)
Definition text_block (name key : string) (l : list string) : block := mk_block name (map (leaf name) l) [(key, one_or_list (map VStr l))].
Lemma text_block_good n name key l : text_key name key = true -> text_key key key = true -> Forall plain l -> good_block num n (text_block name key l).
Proof.
  intros K K2 P. split; [apply Forall_map, Forall_forall; reflexivity|].
  pose proof (group_adds num n (name, key, l) (conj K (conj K2 P))) as A. unfold text_block, block_steps, group_step in *. cbn [b_xmls b_name b_members].
  destruct l as [|s l]; [constructor|].
  pose proof (one_line_vals name (s :: l) P) as E. cbn [map] in E, A |- *. rewrite E. exact A.
Qed.
Lemma text_block_payload name key l : blocks_payload [text_block name key l] = match l with [] => [] | _ => [(key, one_or_list (map VStr l))] end.
Proof. now destruct l. Qed.
Lemma text_block_fixed n name key l : text_key key key = true -> Forall plain l -> fixed num n (blocks_payload [text_block name key l]).
Proof.
  intros K2 P. rewrite text_block_payload. destruct l as [|s l]; [constructor|]. constructor; [|constructor].
  destruct l as [|s2 l]; cbn [map one_or_list].
  - apply fixed_text; [exact K2|]. now inversion P.
  - pose proof K2 as K. unfold text_key in K. rewrite !andb_true_iff in K. destruct K as (((((K & L) & _) & _) & _) & _).
    apply fixed_intro; [exact K| |now apply unnest_leaf]. exact (value_strs num n key (s :: s2 :: l)).
Qed.

(** ** oadrUpdatedReport *)
Definition cancel_blocks (c : cancel) : list block :=
  (ones [(leaf "requestID" (cr_request_id c), [("request_id", VStr (cr_request_id c))])]
   ++ [text_block "reportRequestID" "report_request_id" (iterated (cr_ids c))]
   ++ ones ([(leaf "reportToFollow" (show_bool (cr_to_follow c)), [("report_to_follow", VBool (cr_to_follow c))])]
            ++ ostep (leaf "venID") (fun v => [("ven_id", VStr v)]) (nonempty_text (cr_ven_id c))))%list.
Definition good_cancel (c : cancel) : Prop := plain (cr_request_id c) /\ Forall plain (iterated (cr_ids c)) /\ good plain_or_empty (cr_ven_id c).
Lemma cancel_arrives n c : good_cancel c -> arrives (S n) (cancel_part_xml c) (blocks_payload (cancel_blocks c)).
Proof.
  intros (A & B & C). apply good_nonempty in C.
  assert (X : cancel_part_xml c = node "oadrCancelReport" (blocks_xmls (cancel_blocks c))).
  { unfold cancel_part_xml, cancel_blocks. rewrite !blocks_xmls_app, !blocks_xmls_ones, map_app, map_ostep. cbn [blocks_xmls flat_map text_block b_xmls map fst]. now rewrite app_nil_r. }
  assert (S1 : good_step n (leaf "requestID" (cr_request_id c), [("request_id", VStr (cr_request_id c))])) by now apply step_text.
  assert (S2 : Forall (good_step n) ([(leaf "reportToFollow" (show_bool (cr_to_follow c)), [("report_to_follow", VBool (cr_to_follow c))])]
            ++ ostep (leaf "venID") (fun v => [("ven_id", VStr v)]) (nonempty_text (cr_ven_id c)))%list).
  { apply Forall_app; split; [steps; now apply step_bool|]. eapply good_ostep; [exact C|]. intros v P. now apply step_text. }
  rewrite X. apply blocks_arrive.
  - discriminate.
  - unfold cancel_blocks. apply Forall_app; split; [apply good_ones; steps; exact S1|]. apply Forall_app; split; [|now apply good_ones].
    steps. now apply text_block_good.
  - unfold cancel_blocks, text_block. destruct (iterated (cr_ids c)), (nonempty_text (cr_ven_id c)); reflexivity.
  - unfold cancel_blocks. apply fixed_app; [apply fixed_ones; steps; exact S1|]. apply fixed_app; [|now apply fixed_ones]. now apply text_block_fixed.
  - unfold cancel_blocks, text_block. destruct (iterated (cr_ids c)), (nonempty_text (cr_ven_id c)); reflexivity.
Qed.
Lemma cancel_compact c : compact (blocks_payload (cancel_blocks c)) = true.
Proof. unfold cancel_blocks, text_block. destruct (iterated (cr_ids c)), (nonempty_text (cr_ven_id c)); reflexivity. Qed.
Definition updated_steps (r : answer) (c : option cancel) (ven_id : option string) : list (xml * vdict) :=
  ([(answer_tested_xml r, [("response", VDict (answer_members r (tested (an_request_id r))))])]
   ++ ostep cancel_part_xml (fun c => [("cancel_report", VDict (blocks_payload (cancel_blocks c)))]) c
   ++ ostep (leaf "venID") (fun v => [("ven_id", VStr v)]) ven_id)%list.
Lemma updated_report_parsed n r c ven_id : good_answer r -> good good_cancel c -> good plain ven_id ->
  parse_payload num (S (S n)) (updated_report_xml r c ven_id) = Ok (steps_payload (updated_steps r c ven_id)).
Proof.
  intros R C V.
  assert (X : updated_report_xml r c ven_id = Elem "oadrUpdatedReport" message_attrs "" (map fst (updated_steps r c ven_id))).
  { unfold updated_report_xml, updated_steps. rewrite !map_app, !map_ostep. reflexivity. }
  rewrite X. apply plain_steps_parsed.
  - unfold updated_steps. apply Forall_app; split; [steps; now apply step_answer_tested|].
    apply Forall_app; split; [|eapply good_ostep; [exact V|]; intros v P; now apply step_text].
    eapply good_ostep; [exact C|]. intros x P. apply step_dict; try reflexivity; [apply cancel_compact|now apply cancel_arrives].
  - unfold updated_steps. destruct c, ven_id; reflexivity.
Qed.

(** ** Report requests *)
Definition payload_members (p : string * string) : vdict := [("r_id", VStr (fst p)); ("reading_type", VStr (snd p))].
Lemma specifier_payload_arrives n p : plain (fst p) -> plain (snd p) -> arrives (S n) (specifier_payload_xml p) (payload_members p).
Proof.
  intros A B. apply (arrives_node num n "specifierPayload" [(leaf "rID" (fst p), [("r_id", VStr (fst p))]); (leaf "readingType" (snd p), [("reading_type", VStr (snd p))])]);
    [discriminate| |reflexivity]. steps; now apply step_text.
Qed.
Definition interval_members (i : datetime * Z) : vdict := [("dtstart", read_time (fst i)); ("duration", VDur (snd i))].
Definition report_interval_part (i : datetime * Z) : xml :=
  node "reportInterval" [node "properties" [node "dtstart" [leaf "date-time" (show_time (fst i))]; node "duration" [leaf "duration" (timedeltaformat (snd i))]]].
Lemma step_report_interval n i : good_time (fst i) -> good_duration (snd i) ->
  good_step (S (S (S n))) (report_interval_part i, [("report_interval", VDict (interval_members i))]).
Proof.
  intros T U.
  assert (A : arrives (S (S n)) (node "properties" [node "dtstart" [leaf "date-time" (show_time (fst i))]; node "duration" [leaf "duration" (timedeltaformat (snd i))]]) (interval_members i)).
  { apply (arrives_node num (S n) "properties" [(node "dtstart" [leaf "date-time" (show_time (fst i))], [("dtstart", read_time (fst i))]);
      (node "duration" [leaf "duration" (timedeltaformat (snd i))], [("duration", VDur (snd i))])]); [discriminate| |reflexivity].
    steps; [now apply step_dtstart|now apply step_duration]. }
  assert (B : arrives (S (S (S n))) (report_interval_part i) [("properties", VDict (interval_members i))]).
  { apply (arrives_node num (S (S n)) "reportInterval" [(node "properties" [node "dtstart" [leaf "date-time" (show_time (fst i))]; node "duration" [leaf "duration" (timedeltaformat (snd i))]],
      [("properties", VDict (interval_members i))])]); [discriminate| |reflexivity]. steps. now apply step_dict. }
  apply (step_intro num (S (S (S n))) _ "report_interval" (VDict [("properties", VDict (interval_members i))])); try reflexivity.
  - now apply value_arrives.
  - apply value_stable. apply (stable_deeper num (S (S n))); [lia|apply A].
Qed.
Definition specifier_steps (r : report_request) : list (xml * vdict) :=
  ([(leaf "reportSpecifierID" (rr_specifier r), [("report_specifier_id", VStr (rr_specifier r))]);
    (node "granularity" [leaf "duration" (timedeltaformat (rr_granularity r))], [("granularity", VDur (rr_granularity r))])]
   ++ ostep (fun p => node "reportBackDuration" [leaf "duration" (timedeltaformat p)]) (fun p => [("report_back_duration", VDur p)]) (rr_back r)
   ++ ostep report_interval_part (fun i => [("report_interval", VDict (interval_members i))]) (rr_interval r))%list.
Definition payloads_block (l : list (string * string)) : block :=
  mk_block "specifierPayload" (map specifier_payload_xml l) [("specifier_payloads", VList (map VDict (map payload_members l)))].
Definition specifier_blocks (r : report_request) : list block := (ones (specifier_steps r) ++ [payloads_block (rr_payloads r)])%list.
Lemma specifier_arrives n r : good_report_request r ->
  arrives (S (S (S (S n)))) (node "reportSpecifier" (blocks_xmls (specifier_blocks r))) (blocks_payload (specifier_blocks r)).
Proof.
  intros (_ & A & B & C & D & E).
  assert (G : Forall (good_step (S (S (S n)))) (specifier_steps r)).
  { unfold specifier_steps. apply Forall_app; split; [steps; [now apply step_text|now apply step_duration]|].
    apply Forall_app; split; [eapply good_ostep; [exact C|]; intros x P; now apply step_duration|].
    eapply good_ostep; [exact D|]. intros x [P1 P2]. now apply step_report_interval. }
  assert (F : Forall2 (arrives (S (S (S n)))) (map specifier_payload_xml (rr_payloads r)) (map payload_members (rr_payloads r))).
  { clear - E. induction E as [|p l [P1 P2] E IH]; constructor; [now apply specifier_payload_arrives|exact IH]. }
  apply blocks_arrive.
  - unfold specifier_blocks. discriminate.
  - unfold specifier_blocks. apply Forall_app; split; [now apply good_ones|]. steps. split; [apply Forall_map, Forall_forall; reflexivity|].
    unfold payloads_block, block_steps. cbn [b_xmls b_name b_members]. destruct (rr_payloads r) as [|p l]; [constructor|]. cbn [map]. constructor; [|constructor].
    exact (adds_plural num _ "specifierPayload" "specifier_payload" _ _ eq_refl eq_refl eq_refl F ltac:(discriminate)).
  - unfold specifier_blocks, specifier_steps, payloads_block. destruct (rr_back r), (rr_interval r), (rr_payloads r); reflexivity.
  - unfold specifier_blocks. apply fixed_app; [now apply fixed_ones|]. unfold payloads_block, blocks_payload, block_steps. cbn [flat_map b_xmls b_name b_members].
    destruct (rr_payloads r) as [|p l]; [constructor|]. cbn [map app snd concat]. constructor; [|constructor].
    apply (fixed_list num _ "specifier_payloads" (map payload_members (p :: l))); [reflexivity|reflexivity|].
    clear - F. induction F as [|x q xs ps [_ H] F IH]; constructor; assumption.
  - unfold specifier_blocks, specifier_steps, payloads_block. destruct (rr_back r), (rr_interval r), (rr_payloads r); reflexivity.
Qed.
Lemma specifier_compact r : compact (blocks_payload (specifier_blocks r)) = true.
Proof. unfold specifier_blocks, specifier_steps, payloads_block. destruct (rr_back r), (rr_interval r), (rr_payloads r); reflexivity. Qed.
Definition request_steps (r : report_request) : list (xml * vdict) :=
  [(leaf "reportRequestID" (rr_id r), [("report_request_id", VStr (rr_id r))]);
   (node "reportSpecifier" (blocks_xmls (specifier_blocks r)), [("report_specifier", VDict (blocks_payload (specifier_blocks r)))])].
Lemma report_request_arrives n r : good_report_request r -> arrives (S (S (S (S (S n))))) (report_request_xml r) (steps_payload (request_steps r)).
Proof.
  intros G. assert (X : report_request_xml r = node "oadrReportRequest" (map fst (request_steps r))).
  { unfold report_request_xml, request_steps. cbn [map fst]. unfold specifier_blocks, specifier_steps.
    rewrite blocks_xmls_app, blocks_xmls_ones, !map_app, !map_ostep. cbn [blocks_xmls flat_map payloads_block b_xmls]. rewrite app_nil_r.
    repeat rewrite <- app_assoc. reflexivity. }
  rewrite X. apply arrives_node; [discriminate| |reflexivity]. steps.
  - apply step_text; [reflexivity|apply G].
  - apply step_dict; try reflexivity; [apply specifier_compact|now apply specifier_arrives].
Qed.
Definition requests_block (rs : list report_request) : block :=
  mk_block "oadrReportRequest" (map report_request_xml rs) [("report_requests", VList (map VDict (map (fun r => steps_payload (request_steps r)) rs)))].
Lemma requests_block_good n rs : Forall good_report_request rs -> good_block num (S (S (S (S (S n))))) (requests_block rs).
Proof.
  intros G. split; [apply Forall_map, Forall_forall; reflexivity|].
  assert (F : Forall2 (arrives (S (S (S (S (S n)))))) (map report_request_xml rs) (map (fun r => steps_payload (request_steps r)) rs)).
  { induction G; constructor; [now apply report_request_arrives|assumption]. }
  unfold requests_block, block_steps. cbn [b_xmls b_name b_members]. destruct rs as [|r rs]; [constructor|]. cbn [map]. constructor; [|constructor].
  exact (adds_plural num _ "oadrReportRequest" "report_request" _ _ eq_refl eq_refl eq_refl F ltac:(discriminate)).
Qed.
Definition registered_blocks (r : answer) (rs : list report_request) (ven_id : option string) : list block :=
  (ones [(answer_xml r, [("response", VDict (answer_members r (VStr (printed (an_request_id r)))))])] ++ [requests_block rs]
   ++ ones (ostep (leaf "venID") (fun v => [("ven_id", VStr v)]) ven_id))%list.
Lemma registered_report_parsed n r rs ven_id : good_answer r -> Forall good_report_request rs -> good plain ven_id ->
  parse_payload num (S (S (S (S (S (S n)))))) (registered_report_xml r rs ven_id) = Ok (blocks_payload (registered_blocks r rs ven_id)).
Proof.
  intros R G V.
  assert (X : registered_report_xml r rs ven_id = Elem "oadrRegisteredReport" message_attrs "" (blocks_xmls (registered_blocks r rs ven_id))).
  { unfold registered_report_xml, registered_blocks. rewrite !blocks_xmls_app, !blocks_xmls_ones, map_ostep. cbn [blocks_xmls flat_map requests_block b_xmls]. now rewrite app_nil_r. }
  rewrite X. apply blocks_parsed.
  - unfold registered_blocks. apply Forall_app; split; [apply good_ones; steps; now apply step_answer|]. apply Forall_app; split; [steps; now apply requests_block_good|].
    apply good_ones. eapply good_ostep; [exact V|]. intros v P. now apply step_text.
  - unfold registered_blocks, requests_block. destruct rs, ven_id; reflexivity.
Qed.
Definition create_report_blocks (q : string) (rs : list report_request) (ven_id : string) : list block :=
  (ones [(leaf "requestID" q, [("request_id", VStr q)])] ++ [requests_block rs] ++ ones [(leaf "venID" ven_id, [("ven_id", VStr ven_id)])])%list.
Lemma create_report_parsed n q rs ven_id : plain q -> Forall good_report_request rs -> plain ven_id ->
  parse_payload num (S (S (S (S (S (S n)))))) (create_report_xml q rs ven_id) = Ok (blocks_payload (create_report_blocks q rs ven_id)).
Proof.
  intros Q G V.
  assert (X : create_report_xml q rs ven_id = Elem "oadrCreateReport" message_attrs "" (blocks_xmls (create_report_blocks q rs ven_id))).
  { unfold create_report_xml, create_report_blocks. rewrite !blocks_xmls_app, !blocks_xmls_ones. cbn [blocks_xmls flat_map requests_block b_xmls]. now rewrite app_nil_r. }
  rewrite X. apply blocks_parsed.
  - unfold create_report_blocks. apply Forall_app; split; [apply good_ones; steps; now apply step_text|]. apply Forall_app; split; [steps; now apply requests_block_good|].
    apply good_ones. steps. now apply step_text.
  - unfold create_report_blocks, requests_block. destruct rs; reflexivity.
Qed.
End Party.
