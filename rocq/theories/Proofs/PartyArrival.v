(** The payloads of PartyProofs and OfferProofs, in the vocabulary of PartySpec. *)
From Coq Require Import ZArith String Ascii List Bool Lia Arith.
From Verif.Base Require Import Result Dict PyStr ListExtra.
From Verif.Model Require Import Duration DateTime Text Normalize Xml XmlParty.
From Verif.Spec Require Import Instants TextSpec MessageSpec PartySpec.
From Verif.Proofs Require Import TextProofs NormalizeProofs MessageProofs ArrivalProofs BlockProofs PartyProofs OfferProofs.
Import ListNotations.
Local Open Scope string_scope.

Lemma answer_arrived_members r q (P : val -> Prop) : P q -> answer_arrived r P (VDict (answer_members r q)).
Proof. intros H. unfold answer_arrived, answer_members. repeat split; try here. exact H. Qed.
Lemma tested_is o : text_or_none o (tested o).
Proof. now destruct o. Qed.
Lemma list_or_none_holds {A} (d : vdict) k (P : A -> val -> Prop) (f : A -> vdict) l : member k d = Some (list_or_none (map f l)) ->
  (forall a, In a l -> P a (VDict (f a))) -> holds_list (VDict d) [k] P l.
Proof.
  intros M H. unfold holds_list. destruct l as [|a l]; cbn [at_path]; [now rewrite M|].
  exists (VList (map VDict (map f (a :: l)))). cbn [at_path]. rewrite M. split; [reflexivity|]. now apply is_list_map.
Qed.
Lemma profile_arrived_members p : profile_arrived p (VDict (steps_payload (profile_steps p))).
Proof.
  unfold profile_arrived. split; [here|]. eapply list_or_none_holds; [reflexivity|]. intros t _. here.
Qed.

(** ** Offers *)
Lemma good_target_source t : good_target t -> good_source t.
Proof.
  intros H. unfold good_source. repeat split; apply good_nonempty.
  - apply (H "group_id" t_group_id). now left.
  - apply (H "group_name" t_group_name). right. now left.
  - apply (H "resource_id" t_resource_id). do 2 right. now left.
  - apply (H "ven_id" t_ven_id). do 3 right. now left.
  - apply (H "party_id" t_party_id). do 4 right. now left.
Qed.
Lemma good_description_is d : good_description d -> good_description' d.
Proof.
  intros (A & B & C & D & E & F & G & H). split; [exact A|]. split; [now apply good_nonempty|]. split; [destruct (rd_source d); [now apply good_target_source|exact I]|].
  split; [exact D|]. split; [exact E|]. split; [exact F|]. split; [now apply good_nonempty|exact H].
Qed.
Lemma good_offer_is o : good_offer o -> good_offer' o.
Proof.
  intros (A & B & C & D & E). split; [exact A|]. split; [|auto]. eapply Forall_impl; [|exact B]. intros d. apply good_description_is.
Qed.
Lemma source_arrived_val t : source_arrived t (source_val t).
Proof.
  unfold source_arrived, source_val, source_steps. intros k f I. cbn [kinds In] in I. rewrite <- nonempty_given.
  repeat destruct I as [E|I]; try (injection E as <- <-); try contradiction;
  destruct (nonempty_text (t_group_id t)), (nonempty_text (t_group_name t)), (nonempty_text (t_resource_id t)), (nonempty_text (t_ven_id t)), (nonempty_text (t_party_id t));
    try reflexivity; here.
Qed.

(** The members beside the measurement, of a dict that has them somewhere. *)
Lemma described (p : vdict) d : (forall k, existsb (String.eqb k) measurement_namespaces = false -> k <> "measurement" ->
    member k p = member k (steps_payload (before_steps d) ++ steps_payload (after_steps d))%list) -> description_arrived_but_measurement d (VDict p).
Proof.
  intros H. unfold description_arrived_but_measurement.
  assert (Q : forall k path, existsb (String.eqb k) measurement_namespaces = false -> k <> "measurement" ->
    at_path (k :: path) (VDict p) = at_path (k :: path) (VDict (steps_payload (before_steps d) ++ steps_payload (after_steps d))%list)).
  { intros k path A B. cbn [at_path]. now rewrite (H k A B). }
  assert (Q1 : forall k path P, existsb (String.eqb k) measurement_namespaces = false -> k <> "measurement" ->
    holds (VDict (steps_payload (before_steps d) ++ steps_payload (after_steps d))%list) (k :: path) P -> holds (VDict p) (k :: path) P).
  { intros k path P A B (v & V & W). exists v. now rewrite Q. }
  assert (Q2 : forall A k path (P : A -> val -> Prop) o, existsb (String.eqb k) measurement_namespaces = false -> k <> "measurement" ->
    holds_opt (VDict (steps_payload (before_steps d) ++ steps_payload (after_steps d))%list) (k :: path) P o -> holds_opt (VDict p) (k :: path) P o).
  { intros A k path P o X Y Z. destruct o; cbn [holds_opt] in *; [now apply Q1|]. now rewrite Q. }
  clear H Q. unfold before_steps, after_steps in *.
  split; [apply Q1; [reflexivity|discriminate|here]|].
  split; [apply Q2; [reflexivity|discriminate|]; rewrite <- nonempty_given; clear; destruct (nonempty_text (rd_mrid d)), (rd_source d), (nonempty_text (rd_market d)), (rd_sampling d); try reflexivity; here|].
  split; [apply Q2; [reflexivity|discriminate|]; clear; destruct (rd_source d) as [t|], (nonempty_text (rd_mrid d)), (nonempty_text (rd_market d)), (rd_sampling d); try reflexivity; here; apply source_arrived_val|].
  split; [apply Q1; [reflexivity|discriminate|]; clear; destruct (rd_source d) as [t|], (nonempty_text (rd_mrid d)); here|].
  split; [apply Q1; [reflexivity|discriminate|]; clear; destruct (rd_source d) as [t|], (nonempty_text (rd_mrid d)); here|].
  split; [apply Q2; [reflexivity|discriminate|]; rewrite <- nonempty_given; clear; destruct (nonempty_text (rd_market d)), (nonempty_text (rd_mrid d)), (rd_source d), (rd_sampling d); try reflexivity; here|].
  apply Q2; [reflexivity|discriminate|]. clear. destruct (rd_sampling d), (nonempty_text (rd_market d)), (nonempty_text (rd_mrid d)), (rd_source d); try reflexivity; here; repeat split; here.
Qed.
Lemma member_unmeasured k p : unmeasured p = true -> In k ("measurement" :: measurement_namespaces) -> member k p = None.
Proof.
  intros U I. apply unmeasured_get with (k := k) in U; [|exact I]. revert U. clear. unfold vget. induction p as [|[k' v] p IH]; [reflexivity|]. cbn [get member].
  destruct (String.eqb k k'); [discriminate|exact IH].
Qed.
Lemma raw_description d : good good_measurement (rd_measurement d) ->
  description_arrived_but_measurement d (VDict (steps_payload (description_steps d))) /\ at_path ["measurement"] (VDict (steps_payload (description_steps d))) = None.
Proof.
  intros G. unfold description_steps. rewrite !steps_payload_app.
  assert (M : forall k, existsb (String.eqb k) measurement_namespaces = false ->
    member k (steps_payload (before_steps d) ++ steps_payload (ostep measurement_xml (fun m => [(m_name m, VDict (steps_payload (measurement_steps m)))]) (rd_measurement d)) ++ steps_payload (after_steps d))%list
    = member k (steps_payload (before_steps d) ++ steps_payload (after_steps d))%list).
  { intros k N. rewrite !member_app. destruct (member k (steps_payload (before_steps d))); [reflexivity|].
    destruct (rd_measurement d) as [m|]; [|reflexivity]. unfold steps_payload at 1. cbn [ostep flat_map snd app member].
    rewrite (namespace_other k (m_name m)); [reflexivity|apply G|]. intros J. apply existsb_in in J. congruence. }
  split; [apply described; intros k N _; now apply M|].
  cbn [at_path]. rewrite M by reflexivity. rewrite member_app, !member_unmeasured; [reflexivity|apply after_unmeasured|now left|apply before_unmeasured|now left].
Qed.
Lemma members_description d m : description_arrived_but_measurement d (VDict (description_members d m)).
Proof.
  apply described. intros k _ N. unfold description_members. rewrite !member_app.
  destruct (member k (steps_payload (before_steps d))); [reflexivity|]. destruct (member k (steps_payload (after_steps d))); [reflexivity|].
  cbn [member]. apply String.eqb_neq in N. now rewrite N.
Qed.
Lemma members_measured d m : rd_measurement d = Some m -> description_arrived d (VDict (description_members d m)).
Proof.
  intros E. split; [apply members_description|]. rewrite E. cbn [holds_opt]. exists (VDict (measurement_members m)). split; [|apply measurement_arrived_members].
  cbn [at_path]. unfold description_members. rewrite !member_app.
  rewrite (member_unmeasured _ (steps_payload (before_steps d))), (member_unmeasured _ (steps_payload (after_steps d))); [reflexivity|apply after_unmeasured|now left|apply before_unmeasured|now left].
Qed.
Lemma offered_but l : Forall good_description' l -> is_list description_arrived_but_measurement l (VList (map VDict (offered l))).
Proof.
  intros F. exists (map VDict (offered l)). split; [reflexivity|]. induction F as [|s l G F IH]; [constructor|]. cbn [offered].
  destruct (rd_measurement s) as [m|] eqn:E; cbn [map].
  - constructor; [apply members_description|exact IH].
  - constructor; [apply raw_description; apply G|]. clear IH E. induction F as [|t l Gt F IH]; constructor; [apply raw_description, Gt|exact IH].
Qed.
Lemma described_tail s l : descriptions_measured_first (s :: l) -> descriptions_measured_first l.
Proof. intros M a s' b t c ->. now apply (M (s :: a) s' b t c). Qed.
Lemma raw_nones (raw : description -> vdict) l : Forall (fun s => at_path ["measurement"] (VDict (raw s)) = None) l ->
  Forall2 description_arrived l (map VDict (map raw l)) -> Forall (fun s => rd_measurement s = None) l.
Proof.
  intros F. induction F as [|s l R F IH]; intros A; [constructor|]. cbn [map] in A. inversion A as [|? ? ? ? A1 A2]; subst.
  constructor; [|now apply IH]. destruct A1 as [_ A1]. destruct (rd_measurement s); [|reflexivity].
  destruct A1 as (v & V & _). congruence.
Qed.
Lemma offered_complete l : Forall good_description' l -> (is_list description_arrived l (VList (map VDict (offered l))) <-> descriptions_measured_first l).
Proof.
  intros F. assert (RW : forall x, good_description' x -> description_arrived_but_measurement x (VDict (steps_payload (description_steps x))) /\ at_path ["measurement"] (VDict (steps_payload (description_steps x))) = None)
    by (intros x G; apply raw_description, G).
  split.
  - intros (vs & E & A). injection E as <-. revert A. induction F as [|s l G F IH]; intros A a s' b t c H N; [now destruct a|]. cbn [offered] in A.
    destruct (rd_measurement s) as [m|] eqn:Es; cbn [map] in A; inversion A as [|? ? ? ? _ A']; subst.
    + destruct a as [|a0 a]; [injection H as -> _; congruence|]. injection H as -> ->. exact (IH A' a s' b t c eq_refl N).
    + assert (L : Forall (fun s => rd_measurement s = None) l).
      { eapply raw_nones; [|exact A']. eapply Forall_impl; [|exact F]. intros x Gx. now apply RW. }
      rewrite Forall_forall in L. destruct a as [|a0 a]; injection H as -> ->; apply L, in_or_app; right; [now left|].
      right. apply in_or_app. right. now left.
  - intros M. exists (map VDict (offered l)). split; [reflexivity|]. induction F as [|s l G F IH]; [constructor|]. cbn [offered].
    destruct (rd_measurement s) as [m|] eqn:Es; cbn [map].
    + constructor; [now apply members_measured|]. apply IH. now apply described_tail in M.
    + assert (L : Forall (fun s => rd_measurement s = None) l).
      { apply Forall_forall. intros t I. apply in_split in I as (b & c & ->). now apply (M [] s b t c). }
      constructor.
      * destruct (RW s G) as [B N]. split; [exact B|]. rewrite Es. exact N.
      * clear - F L RW. induction F as [|x l G F IH]; constructor; inversion L; subst.
        -- destruct (RW x G) as [B N]. split; [exact B|]. match goal with H : rd_measurement x = None |- _ => rewrite H end. exact N.
        -- now apply IH.
Qed.
Lemma offer_arrived_payload (D : description -> val -> Prop) o : good_offer' o ->
  (offer_arrived D o (VDict (blocks_payload (offer_blocks o))) <-> is_list D (of_descriptions o) (VList (map VDict (offered (of_descriptions o))))).
Proof.
  intros (_ & _ & _ & _ & T). apply read_time_is in T. unfold offer_arrived, offer_blocks, offer_before, offer_after, descriptions_block.
  destruct (of_descriptions o) as [|d l] eqn:E; cbn [holds_many].
  - split; [intros _; exists []; split; [reflexivity|constructor]|]. intros _. destruct (of_duration o); (split; [try reflexivity; here|]); (split; [reflexivity|]); (split; [here|]); (split; [here|]); here; exact T.
  - split.
    + intros (_ & (v & V & W) & _). assert (EV : v = VList (map VDict (offered (d :: l)))) by (destruct (of_duration o); (transitivity v; [reflexivity|]); change (Some (VList (map VDict (offered (d :: l)))) = Some v) in V; congruence). now rewrite EV in W.
    + intros H. destruct (of_duration o); (split; [try reflexivity; here|]); (split; [here; exact H|]); (split; [here|]); (split; [here|]); here; exact T.
Qed.
Lemma offers_arrived_payload (D : description -> val -> Prop) os : Forall good_offer' os ->
  (is_list (offer_arrived D) os (VList (map VDict (map (fun o => blocks_payload (offer_blocks o)) os)))
   <-> Forall (fun o => is_list D (of_descriptions o) (VList (map VDict (offered (of_descriptions o))))) os).
Proof.
  intros G. split.
  - intros (vs & E & A). injection E as <-. revert A. induction G as [|o os Go G IH]; intros A; [constructor|]. cbn [map] in A. inversion A as [|? ? ? ? A1 A2]; subst.
    constructor; [now apply offer_arrived_payload in A1|now apply IH].
  - intros F. rewrite Forall_forall in F, G. apply is_list_map. intros o I. apply offer_arrived_payload; [now apply G|now apply F].
Qed.

(** ** Requests *)
Lemma request_arrived_payload r : good_report_request r -> report_request_arrived r (VDict (steps_payload (request_steps r))).
Proof.
  intros (_ & _ & _ & _ & T & _). unfold report_request_arrived. split; [here|]. eexists. split; [reflexivity|].
  unfold specifier_blocks, specifier_steps, payloads_block.
  assert (L : is_list (fun p x => holds x ["r_id"] (is_text (fst p)) /\ holds x ["reading_type"] (is_text (snd p))) (rr_payloads r) (VList (map VDict (map payload_members (rr_payloads r))))).
  { apply is_list_map. intros p _. split; here. }
  destruct (rr_interval r) as [i|]; [destruct T as [T _]; apply read_time_is in T|];
  destruct (rr_back r), (rr_payloads r) as [|p l];
    (split; [here|]); (split; [here|]); (split; [try reflexivity; here|]); (split; [try reflexivity; here; split; here; exact T|]); try reflexivity; here; exact L.
Qed.
Lemma requests_arrived_payload rs : Forall good_report_request rs ->
  is_list report_request_arrived rs (VList (map VDict (map (fun r => steps_payload (request_steps r)) rs))).
Proof. intros F. rewrite Forall_forall in F. apply is_list_map. intros r I. now apply request_arrived_payload, F. Qed.
