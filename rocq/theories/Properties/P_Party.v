(** C64-C67: registration messages, report offers, report requests and short
    messages arrive as they were sent. *)
From Coq Require Import ZArith String Ascii List Bool Lia.
From Verif.Base Require Import Result Dict PyStr.
From Verif.Model Require Import Text DateTime Normalize Xml XmlParty.
From Verif.Spec Require Import Calendar Instants TextSpec MessageSpec PartySpec.
From Verif.Proofs Require Import DateTimeProofs NormalizeProofs MessageProofs ArrivalProofs BlockProofs PartyProofs OfferProofs PartyArrival.
From Verif.Properties Require Import P_DateTime P_Messages.
Import ListNotations.
Local Open Scope string_scope.
Local Open Scope Z_scope.

Definition read (num : numbers) (depth : nat) (x : xml) (P : val -> Prop) : Prop := exists p, parse_payload num depth x = Ok p /\ P (VDict p).

(** ** C64 *)
Definition C64_full : Prop :=
  forall num n,
    (forall q p, plain q -> good_party p ->
       read num (5 + n) (create_party_xml q p) (fun v => holds v ["request_id"] (is_text q) /\ party_arrived_but_address p v /\ holds_opt v ["transport_address"] is_text (pt_address p))) /\
    (forall r c, good_answer r -> good_created_party c ->
       read num (5 + n) (created_party_xml r c) (fun v => holds v ["response"] (answer_arrived r (text_or_none (an_request_id r))) /\ created_party_arrived c v)).
(** Every setting of a registration request arrives, except that a missing
    transport address becomes a text. *)
Theorem C64_request_partial :
  forall num n q p, plain q -> good_party p ->
    read num (5 + n) (create_party_xml q p) (fun v => holds v ["request_id"] (is_text q) /\ party_arrived_but_address p v /\
      (holds_opt v ["transport_address"] is_text (pt_address p) <-> pt_address p <> None)).
Proof.
  intros num n q p Q G. eexists. split; [now apply create_party_parsed|]. unfold party_steps, party_arrived_but_address.
  destruct (pt_registration_id p), (pt_ven_id p); (split; [here|]); (split; [repeat split; try reflexivity; here|]);
  (destruct (pt_address p); cbn [holds_opt]; split; intros H; try discriminate; try (now elim H); here).
Qed.
Print Assumptions C64_request_partial.
Definition sample_party (address : option string) : party := mk_party (Some "reg_1") None "2.0b" "simpleHttp" address false true "ven" true.
Lemma good_sample_party address : good plain address -> good_party (sample_party address).
Proof. intros A. split; [plain_text|]. split; [exact I|]. split; [plain_text|]. split; [plain_text|]. split; [exact A|plain_text]. Qed.
Theorem C64_address_refuted : ~ C64_full.
Proof.
  intros F. set (num := mk_numbers (fun _ => true) (fun _ => Ok 0) (fun _ => "")). destruct (F num 0%nat) as [H _].
  assert (Q : plain "q1") by plain_text. pose proof (good_sample_party None I) as G.
  destruct (H "q1" (sample_party None) Q G) as (p & P & _ & _ & A). destruct (C64_request_partial num 0 "q1" (sample_party None) Q G) as (p' & P' & _ & _ & A').
  rewrite P in P'. injection P' as <-. apply A' in A. now apply A.
Qed.
Print Assumptions C64_address_refuted.
(** The VTN's answer: identifiers, profiles with their transports, poll
    frequency, for any number of profiles and transports. *)
Theorem C64_answer_partial :
  forall num n r q c, good_answer r -> an_request_id r = Some q -> good_created_party c ->
    read num (5 + n) (created_party_xml r c) (fun v => holds v ["response"] (answer_arrived r (is_text q)) /\ created_party_arrived c v).
Proof.
  intros num n r q c R Q G. eexists. split; [now apply created_party_parsed|]. unfold created_party_steps, created_party_arrived. rewrite Q. cbn [printed].
  split; [destruct (cp_poll_freq c); here; now apply answer_arrived_members|].
  split; [destruct (cp_registration_id c), (cp_poll_freq c); try reflexivity; here|]. split; [destruct (cp_ven_id c), (cp_poll_freq c); try reflexivity; here|].
  split; [destruct (cp_poll_freq c); here|]. split; [|destruct (cp_poll_freq c); try reflexivity; here].
  eapply list_or_none_holds; [destruct (cp_poll_freq c); reflexivity|]. intros a _. apply profile_arrived_members.
Qed.
Print Assumptions C64_answer_partial.
(** The messages that end or renew a registration. *)
Theorem C64_ending_partial :
  forall num n r q g v, good_answer r -> an_request_id r = Some q -> plain g -> plain v ->
    read num (2 + n) (cancel_party_xml q g v) (fun x => holds x ["request_id"] (is_text q) /\ holds x ["registration_id"] (is_text g) /\ holds x ["ven_id"] (is_text v)) /\
    read num (2 + n) (canceled_party_xml r g v) (fun x => holds x ["response"] (answer_arrived r (is_text q)) /\ holds x ["registration_id"] (is_text g) /\ holds x ["ven_id"] (is_text v)) /\
    read num (2 + n) (query_registration_xml q) (fun x => holds x ["request_id"] (is_text q)) /\
    read num (2 + n) (request_reregistration_xml v) (fun x => holds x ["ven_id"] (is_text v)).
Proof.
  intros num n r q g v R Q G V. assert (PQ : plain q) by (destruct R as [_ R]; now rewrite Q in R). repeat split.
  - eexists. split; [now apply cancel_party_parsed|]. repeat split; here.
  - eexists. split; [now apply canceled_party_parsed|]. rewrite Q. repeat split; here. now apply answer_arrived_members.
  - eexists. split; [now apply query_registration_parsed|]. here.
  - eexists. split; [now apply request_reregistration_parsed|]. here.
Qed.
Print Assumptions C64_ending_partial.
Example C64_example : good_party (sample_party (Some "http://ven.example")) /\ good_answer (mk_answer 200 "OK" (Some "q1")) /\
  good_created_party (mk_created_party (Some "reg_1") (Some "ven_1") "vtn_1" [mk_profile "2.0b" ["simpleHttp"; "xmpp"]; mk_profile "2.0a" []] (Some 10000000)).
Proof.
  split; [apply good_sample_party; cbn [good]; plain_text|]. split; [split; [plain_text|cbn [good an_request_id]; plain_text]|].
  split; [cbn [good cp_registration_id]; plain_text|]. split; [cbn [good cp_ven_id]; plain_text|]. split; [plain_text|].
  split; [|cbn [good cp_poll_freq]; repeat split; lia].
  apply Forall_cons; [split; [plain_text|repeat (apply Forall_cons; [plain_text|]); apply Forall_nil]|].
  apply Forall_cons; [split; [plain_text|apply Forall_nil]|apply Forall_nil].
Qed.

(** ** C65 *)
Definition offers_read (num : numbers) (n : nat) (q : string) (os : list offer) (ven_id : option string) (P : val -> Prop) : Prop :=
  read num (5 + n) (register_report_xml q os ven_id) (fun v => holds v ["request_id"] (is_text q) /\ holds_opt v ["ven_id"] is_text ven_id /\ P v).
Definition C65_full : Prop :=
  forall num n q os ven_id, plain q -> Forall good_offer os -> good plain ven_id ->
    offers_read num n q os ven_id (fun v => holds_many v ["reports"] (offer_arrived description_arrived) os).
Lemma offers_payload num n q os ven_id : plain q -> Forall good_offer os -> good plain ven_id ->
  offers_read num n q os ven_id (fun v => forall D, holds_many v ["reports"] (offer_arrived D) os <->
    Forall (fun o => is_list D (of_descriptions o) (VList (map VDict (offered (of_descriptions o))))) os).
Proof.
  intros Q G V. assert (G' : Forall good_offer' os) by (eapply Forall_impl; [|exact G]; intros o; apply good_offer_is).
  eexists. split; [now apply register_report_parsed|]. unfold register_report_blocks, offers_block.
  split; [destruct os, ven_id; here|]. split; [destruct os, ven_id; try reflexivity; here|].
  intros D. rewrite <- (offers_arrived_payload D os G'). destruct os as [|o os]; cbn [holds_many].
  - split; [intros _; exists []; split; [reflexivity|constructor]|]. intros _. destruct ven_id; reflexivity.
  - set (L := VList (map VDict (map (fun o => blocks_payload (offer_blocks o)) (o :: os)))).
    assert (E : at_path ["reports"] (VDict (blocks_payload (ones [(leaf "requestID" q, [("request_id", VStr q)])] ++
      [mk_block "oadrReport" (map offer_xml (o :: os)) [("reports", L)]] ++ ones (ostep (leaf "venID") (fun v => [("ven_id", VStr v)]) ven_id))%list)) = Some L) by (destruct ven_id; reflexivity).
    unfold holds. rewrite E. split; [intros (x & X & A); assert (X' : x = L) by congruence; rewrite <- X'; exact A|intros A; exists L; now split].
Qed.
(** Everything but the measurements arrives, for any number of reports and
    descriptions. *)
Theorem C65_all_but_measurements_partial :
  forall num n q os ven_id, plain q -> Forall good_offer os -> good plain ven_id ->
    offers_read num n q os ven_id (fun v => holds_many v ["reports"] (offer_arrived description_arrived_but_measurement) os).
Proof.
  intros num n q os v Q G V. destruct (offers_payload num n q os v Q G V) as (p & P & A & B & E). exists p. split; [exact P|]. split; [exact A|]. split; [exact B|].
  apply E. eapply Forall_impl; [|exact G]. intros o (_ & D & _). apply offered_but. eapply Forall_impl; [|exact D]. intros d. apply good_description_is.
Qed.
Print Assumptions C65_all_but_measurements_partial.
(** The measurements arrive in the uniform representation exactly if in no
    report a description with a measurement comes after one without. *)
Theorem C65_complete_iff_partial :
  forall num n q os ven_id, plain q -> Forall good_offer os -> good plain ven_id ->
    offers_read num n q os ven_id (fun v =>
      holds_many v ["reports"] (offer_arrived description_arrived) os <-> Forall (fun o => descriptions_measured_first (of_descriptions o)) os).
Proof.
  intros num n q os v Q G V. destruct (offers_payload num n q os v Q G V) as (p & P & A & B & E). exists p. split; [exact P|]. split; [exact A|]. split; [exact B|].
  rewrite E. split; intros F; rewrite Forall_forall in *; intros o I; destruct (G o I) as (_ & D & _);
    (assert (D' : Forall good_description' (of_descriptions o)) by (eapply Forall_impl; [|exact D]; intros d; apply good_description_is)).
  - apply offered_complete; [exact D'|]. now apply F.
  - apply offered_complete; [exact D'|]. now apply F.
Qed.
Print Assumptions C65_complete_iff_partial.
Definition sample_description (id : string) (m : option measurement) : description :=
  mk_description id (Some "asset_1") (Some (mk_target None None (Some "dev_1") None None)) "reading" m "Direct Read" (Some "http://market") (Some (mk_sampling 1000000 60000000 false)).
Lemma good_sample_description id m : plain id -> good good_measurement m -> good_description (sample_description id m).
Proof.
  intros P M. split; [exact P|]. split; [right; plain_text|]. split.
  - cbn [good rd_source sample_description]. intros k f J; unfold kinds in J; simpl in J;
      repeat (destruct J as [J|J]; [injection J as <- <-; cbn; first [exact I | right; plain_text]|]); contradiction.
  - split; [plain_text|]. split; [exact M|]. split; [plain_text|]. split; [right; plain_text|]. cbn [good rd_sampling sample_description]. repeat split; cbn; lia.
Qed.
Definition sample_offer (l : list description) : offer := mk_offer (Some 3600000000) l "spec_1" "METADATA_TELEMETRY_USAGE" moment.
Lemma good_sample_offer l : Forall good_description l -> good_offer (sample_offer l).
Proof. intros F. split; [cbn; repeat split; lia|]. split; [exact F|]. split; [plain_text|]. split; [plain_text|exact good_moment]. Qed.
Lemma good_sample_offers : Forall good_offer [sample_offer [sample_description "r1" None; sample_description "r2" (Some sample_measurement)]].
Proof.
  apply Forall_cons; [|apply Forall_nil]. apply good_sample_offer.
  apply Forall_cons; [apply good_sample_description; [plain_text|exact I]|]. apply Forall_cons; [apply good_sample_description; [plain_text|exact good_sample_measurement]|apply Forall_nil].
Qed.
Theorem C65_complete_refuted : ~ C65_full.
Proof.
  intros F. set (num := mk_numbers (fun _ => true) (fun _ => Ok 0) (fun _ => "")). assert (Q : plain "q1") by plain_text.
  pose proof good_sample_offers as G. set (os := [sample_offer _]) in G.
  destruct (F num 0%nat "q1" os None Q G I) as (p & P & _ & _ & E). destruct (C65_complete_iff_partial num 0 "q1" os None Q G I) as (p' & P' & _ & _ & E').
  rewrite P in P'. injection P' as <-. apply E' in E. inversion E as [|? ? M _]; subst.
  specialize (M [] (sample_description "r1" None) [] (sample_description "r2" (Some sample_measurement)) [] eq_refl eq_refl). discriminate M.
Qed.
Print Assumptions C65_complete_refuted.
Example C65_example : Forall good_offer [sample_offer [sample_description "r1" (Some sample_measurement); sample_description "r2" (Some sample_measurement)]; sample_offer []].
Proof.
  apply Forall_cons; [|apply Forall_cons; [|apply Forall_nil]]; apply good_sample_offer; [|apply Forall_nil].
  repeat (apply Forall_cons; [apply good_sample_description; [plain_text|exact good_sample_measurement]|]). apply Forall_nil.
Qed.

(** ** C66 *)
(** The VTN's report requests arrive, in the answer to an offer as well as on
    their own, for any number of requests and data points. *)
Theorem C66_requests_arrive :
  forall num n r q rs, good_answer r -> an_request_id r = Some q -> Forall good_report_request rs ->
    (forall ven_id, good plain ven_id ->
       read num (6 + n) (registered_report_xml r rs ven_id) (fun v =>
         holds v ["response"] (answer_arrived r (is_text q)) /\ holds_many v ["report_requests"] report_request_arrived rs /\ holds_opt v ["ven_id"] is_text ven_id)) /\
    (forall ven_id, plain ven_id ->
       read num (6 + n) (create_report_xml q rs ven_id) (fun v =>
         holds v ["request_id"] (is_text q) /\ holds_many v ["report_requests"] report_request_arrived rs /\ holds v ["ven_id"] (is_text ven_id))).
Proof.
  intros num n r q rs R Q G. assert (PQ : plain q) by (destruct R as [_ R]; now rewrite Q in R). pose proof (requests_arrived_payload rs G) as L. split.
  - intros v V. eexists. split; [now apply registered_report_parsed|]. unfold registered_blocks, requests_block. rewrite Q. cbn [printed].
    split; [destruct rs, v; here; now apply answer_arrived_members|].
    split; [destruct rs, v; try reflexivity; here; exact L|]. destruct rs, v; try reflexivity; here.
  - intros v V. eexists. split; [now apply create_report_parsed|]. unfold create_report_blocks, requests_block.
    split; [destruct rs; here|]. split; [destruct rs; try reflexivity; here; exact L|]. destruct rs; here.
Qed.
Print Assumptions C66_requests_arrive.
Example C66_example : Forall good_report_request
  [mk_report_request "rq_1" "spec_1" 60000000 (Some 900000000) (Some (moment, 7200000000)) [("r1", "Direct Read"); ("r2", "x-notApplicable")];
   mk_report_request "rq_2" "spec_2" 0 None None []].
Proof.
  apply Forall_cons; [|apply Forall_cons; [|apply Forall_nil]].
  - split; [plain_text|]. split; [plain_text|]. split; [repeat split; cbn; lia|]. split; [cbn; repeat split; lia|].
    split; [split; [exact good_moment|cbn; repeat split; lia]|].
    repeat (apply Forall_cons; [split; plain_text|]). apply Forall_nil.
  - split; [plain_text|]. split; [plain_text|]. split; [repeat split; cbn; lia|]. split; [exact I|]. split; [exact I|apply Forall_nil].
Qed.

(** ** C67 *)
Definition pending_arrived (ids : list string) (v : val) : Prop :=
  holds v ["pending_reports"] (is_list (fun i x => holds x ["report_request_id"] (is_text i)) ids).
Definition C67_full : Prop :=
  forall num n,
    (forall name r ids ven_id, good_answer r -> Forall one_line ids -> good plain ven_id ->
       read num (2 + n) (pending_reports_xml name r ids ven_id) (pending_arrived ids)) /\
    (forall r ven_id, good_answer r -> good plain ven_id ->
       read num (2 + n) (response_message_xml r ven_id) (fun v => holds v ["response"] (answer_arrived r (text_or_none (an_request_id r))) /\ holds_or_none v ["ven_id"] ven_id)).
(** Pending reports: any number of them, of any identifiers, but for one case:
    a single identifier that looks like a number or a truth value. *)
Theorem C67_pending_partial :
  forall num n name r q ids ven_id, good_answer r -> an_request_id r = Some q -> Forall one_line ids -> good plain ven_id ->
    (forall i, ids = [i] -> plain i \/ exists z, i = str_of_Z z) ->
    read num (2 + n) (pending_reports_xml name r ids ven_id) (fun v =>
      holds v ["response"] (answer_arrived r (is_text q)) /\ pending_arrived ids v /\ holds_opt v ["ven_id"] is_text ven_id).
Proof.
  intros num n name r q ids v R Q O V H.
  assert (G : ids_ok ids) by (unfold ids_ok; destruct ids as [|i [|j l]]; [exact O|now apply H|exact O]).
  eexists. split; [now apply pending_reports_parsed|]. unfold pending_blocks, pending_arrived. rewrite Q. cbn [printed].
  split; [destruct v; here; now apply answer_arrived_members|].
  split; [|destruct v; try reflexivity; here].
  assert (L : is_list (fun i x => holds x ["report_request_id"] (is_text i)) ids (pending_val ids)).
  { unfold pending_val. rewrite <- (map_map (fun s => [("report_request_id", VStr s)]) VDict). apply is_list_map. intros i _. here. }
  destruct v; here; exact L.
Qed.
Print Assumptions C67_pending_partial.
Theorem C67_pending_refuted : ~ C67_full.
Proof.
  intros F. set (num := mk_numbers (fun _ => true) (fun _ => Ok 0) (fun _ => "")). destruct (F num 0%nat) as [H _].
  assert (R : good_answer (mk_answer 200 "OK" (Some "q1"))) by (split; [plain_text|cbn [good an_request_id]; plain_text]).
  assert (O : Forall one_line ["007"]).
  { apply Forall_cons; [|apply Forall_nil]. apply unblank_one_line; [|discriminate]. repeat (apply char_unblank; [reflexivity|]). exact I. }
  destruct (H "oadrCreatedReport" _ ["007"] None R O I) as (p & P & A). cbn in P. injection P as <-.
  destruct A as (x & X & vs & E & L). inversion L as [|? ? ? ? L1 L2]; subst. cbn in X. injection X as X _.
  destruct L1 as (w & W & T). rewrite <- X in W. cbn in W. injection W as <-. discriminate T.
Qed.
Print Assumptions C67_pending_refuted.
(** The general answer of the VTN and the requests for events and for the end
    of a report. *)
Theorem C67_short_partial :
  forall num n r ven_id q i to_follow limit, good_answer r -> plain ven_id -> plain q -> plain i ->
    read num (2 + n) (response_message_xml r (Some ven_id)) (fun v => holds v ["response"] (answer_arrived r (text_or_none (an_request_id r))) /\ holds v ["ven_id"] (is_text ven_id)) /\
    read num (2 + n) (request_event_xml q ven_id limit) (fun v => holds v ["request_id"] (is_text q) /\ holds v ["ven_id"] (is_text ven_id) /\ holds_opt v ["reply_limit"] is_int limit) /\
    read num (2 + n) (cancel_report_xml q i to_follow ven_id) (fun v =>
      holds v ["request_id"] (is_text q) /\ holds v ["report_request_id"] (is_text i) /\ holds v ["report_to_follow"] (is_bool to_follow) /\ holds v ["ven_id"] (is_text ven_id)).
Proof.
  intros num n r v q i f limit R V Q P. repeat split.
  - eexists. split; [now apply response_message_parsed|]. split; here. apply answer_arrived_members, tested_is.
  - eexists. split; [now apply request_event_parsed|]. destruct limit; repeat split; try reflexivity; here.
  - eexists. split; [now apply cancel_report_parsed|]. repeat split; here.
Qed.
Print Assumptions C67_short_partial.
(** The VTN's answer to a report, with the reports to stop. *)
Theorem C67_updated_partial :
  forall num n r q ids to_follow cancel_ven ven_id, good_answer r -> plain q -> Forall plain ids -> good plain_or_empty cancel_ven -> good plain ven_id ->
    read num (2 + n) (updated_report_xml r (Some (mk_cancel q (Ids ids) to_follow cancel_ven)) ven_id) (fun v =>
      holds v ["response"] (answer_arrived r (text_or_none (an_request_id r))) /\ holds_opt v ["ven_id"] is_text ven_id /\
      holds v ["cancel_report"] (fun c =>
        holds c ["request_id"] (is_text q) /\ holds c ["report_to_follow"] (is_bool to_follow) /\ holds_opt c ["ven_id"] is_text (given cancel_ven) /\
        match ids with
        | [] => at_path ["report_request_id"] c = None
        | [i] => holds c ["report_request_id"] (is_text i)
        | _ => holds c ["report_request_id"] (is_list is_text ids)
        end)) /\
    read num (2 + n) (updated_report_xml r None ven_id) (fun v =>
      holds v ["response"] (answer_arrived r (text_or_none (an_request_id r))) /\ holds_opt v ["ven_id"] is_text ven_id /\ at_path ["cancel_report"] v = None).
Proof.
  intros num n r q ids f cv v R Q I C V. split.
  - assert (G : good_cancel (mk_cancel q (Ids ids) f cv)) by (split; [exact Q|split; [exact I|exact C]]).
    eexists. split; [now apply updated_report_parsed|]. unfold updated_steps.
    split; [destruct v; here; apply answer_arrived_members, tested_is|]. split; [destruct v; try reflexivity; here|].
    assert (L : holds (VDict (blocks_payload (cancel_blocks (mk_cancel q (Ids ids) f cv)))) [] (fun c =>
        holds c ["request_id"] (is_text q) /\ holds c ["report_to_follow"] (is_bool f) /\ holds_opt c ["ven_id"] is_text (given cv) /\
        match ids with
        | [] => at_path ["report_request_id"] c = None
        | [i] => holds c ["report_request_id"] (is_text i)
        | _ => holds c ["report_request_id"] (is_list is_text ids)
        end)).
    { eexists. split; [reflexivity|]. rewrite <- nonempty_given. unfold cancel_blocks, text_block. cbn [cr_request_id cr_ids cr_to_follow cr_ven_id iterated].
      destruct ids as [|i [|j l]], (nonempty_text cv); (split; [here|]); (split; [here|]); (split; [try reflexivity; here|]); try reflexivity; here;
        (eexists; split; [reflexivity|]; clear; induction (i :: j :: l); constructor; [reflexivity|assumption]). }
    destruct L as (c & E & L). injection E as <-. destruct v; here; exact L.
  - eexists. split; [now apply (updated_report_parsed num n r None v R Logic.I)|]. unfold updated_steps.
    split; [destruct v; here; apply answer_arrived_members, tested_is|]. split; [destruct v; try reflexivity; here|]. destruct v; reflexivity.
Qed.
Print Assumptions C67_updated_partial.
(** An identifier given as a text instead of a list is taken apart. *)
Theorem C67_text_taken_apart :
  forall num n r q s to_follow ven_id, good_answer r -> plain q -> (2 <= String.length s)%nat -> Forall plain (characters s) -> good plain ven_id ->
    read num (2 + n) (updated_report_xml r (Some (mk_cancel q (OneId s) to_follow None)) ven_id) (fun v =>
      holds v ["cancel_report"; "report_request_id"] (is_list is_text (characters s))).
Proof.
  intros num n r q s f v R Q L I V. assert (G : good_cancel (mk_cancel q (OneId s) f None)) by (split; [exact Q|split; [exact I|exact Logic.I]]).
  eexists. split; [now apply updated_report_parsed|]. unfold updated_steps.
  assert (E : at_path ["report_request_id"] (VDict (blocks_payload (cancel_blocks (mk_cancel q (OneId s) f None)))) = Some (VList (map VStr (characters s)))).
  { unfold cancel_blocks, text_block. cbn [cr_request_id cr_ids cr_to_follow cr_ven_id iterated].
    destruct s as [|c1 [|c2 s]]; [cbn in L; lia|cbn in L; lia|]. reflexivity. }
  exists (VList (map VStr (characters s))). split; [destruct v; exact E|]. eexists. split; [reflexivity|]. clear. induction (characters s); constructor; [reflexivity|assumption].
Qed.
Print Assumptions C67_text_taken_apart.
Example C67_example : good_answer (mk_answer 200 "OK" None) /\ Forall plain (characters "rqx") /\ Forall one_line ["007"; "true"; "a b"].
Proof.
  split; [split; [plain_text|exact I]|]. split; [repeat (apply Forall_cons; [plain_text|]); apply Forall_nil|].
  assert (U : forall s, unblank s -> s <> "" -> one_line s) by (intros; now apply unblank_one_line).
  apply Forall_cons; [|apply Forall_cons; [|apply Forall_cons; [|apply Forall_nil]]].
  - apply U; [|discriminate]. repeat (apply char_unblank; [reflexivity|]). exact I.
  - apply U; [|discriminate]. repeat (apply char_unblank; [reflexivity|]). exact I.
  - assert (P : plain "a b") by plain_text. apply P.
Qed.
