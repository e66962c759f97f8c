(** C69, C70: opt messages arrive as they were sent, and the VEN's list of opts
    is what the VTN acknowledged. *)
From Coq Require Import ZArith String Ascii List Bool Lia.
From Verif.Base Require Import Result Dict PyStr.
From Verif.Model Require Import Text DateTime Normalize Xml XmlParty XmlOpt Objects ClientOpts.
From Verif.Spec Require Import Calendar Instants TextSpec MessageSpec PartySpec OptSpec.
From Verif.Proofs Require Import DateTimeProofs NormalizeProofs MessageProofs ArrivalProofs BlockProofs PartyProofs OfferProofs PartyArrival OptMessageProofs ClientOptProofs.
From Verif.Properties Require Import P_DateTime P_Messages P_Party.
Import ListNotations.
Local Open Scope string_scope.
Local Open Scope Z_scope.

(** ** C69 *)
Definition C69_full : Prop :=
  forall num n q v o, plain q -> plain v -> good_opt o ->
    read num (6 + n) (create_opt_xml q v o) (fun x => opt_arrived_but_lists q v o x /\ opt_targets_arrived o x /\ availability_arrived o x).

Lemma targets_arrived_in ts d : member "targets" d = member "targets" (target_members ts) -> member "targets_by_type" d = member "targets_by_type" (target_members ts) ->
  targets_arrived ts (VDict d).
Proof.
  intros A B. destruct (targets_arrived_members ts [] VNone (target_members ts) (or_introl eq_refl) eq_refl eq_refl) as [T1 T2]. split.
  - cbn [at_path] in *. rewrite A. exact T1.
  - intros k f I. specialize (T2 k f I). cbn [at_path] in *. rewrite B. exact T2.
Qed.
(** With at most one target everything but the availability arrives, whatever
    else the opt has. *)
Theorem C69_opt_partial :
  forall num n q v o, plain q -> plain v -> good_opt o -> (length (om_targets o) <= 1)%nat ->
    read num (6 + n) (create_opt_xml q v o) (fun x => opt_arrived_but_lists q v o x /\ opt_targets_arrived o x /\
      match om_availability o with
      | None => at_path ["vavailability"] x = None
      | Some [] => at_path ["vavailability"; "components"] x = Some VNone
      | Some [c] => holds x ["vavailability"; "components"; "available"] (component_arrived c)
      | Some cs => holds x ["vavailability"; "components"; "available"] (is_list (fun c y => holds y ["properties"] (component_arrived c)) cs)
      end).
Proof.
  intros num n q v o Q V G L. eexists. split; [now apply create_opt_parsed|]. destruct G as (_ & _ & _ & _ & A & T & _).
  assert (TC : is_time (om_created o) (read_time (om_created o))) by now apply read_time_is.
  split; [|split].
  - unfold opt_arrived_but_lists, opt_blocks, before_targets, head_steps, availability_blocks, middle_steps, device_steps, targets_block.
    destruct (om_market o), (om_availability o), (om_event o), (om_mrid o), (om_targets o); repeat split; try reflexivity; here; assumption.
  - apply targets_arrived_in; unfold opt_blocks, before_targets, head_steps, availability_blocks, middle_steps, device_steps, targets_block;
    destruct (om_market o), (om_availability o), (om_event o), (om_mrid o), (om_targets o); reflexivity.
  - assert (E : at_path ["vavailability"] (VDict (blocks_payload (opt_blocks q v o))) = match om_availability o with Some cs => Some (VDict [("components", components_val cs)]) | None => None end).
    { unfold opt_blocks, before_targets, head_steps, availability_blocks, middle_steps, device_steps, targets_block.
      destruct (om_market o), (om_availability o), (om_event o), (om_mrid o), (om_targets o); reflexivity. }
    assert (E' : forall p, at_path ("vavailability" :: p) (VDict (blocks_payload (opt_blocks q v o))) = match om_availability o with Some cs => at_path p (VDict [("components", components_val cs)]) | None => None end).
    { intros p. cbn [at_path] in E |- *. destruct (member "vavailability" (blocks_payload (opt_blocks q v o))), (om_availability o); try discriminate E; [injection E as ->|]; reflexivity. }
    assert (I : forall c, good_component c -> component_arrived c (VDict (interval_members c))).
    { intros c [C D]. pose proof (read_time_is _ C). split; here. assumption. }
    destruct (om_availability o) as [cs|]; [|apply E]. destruct cs as [|c [|c2 cs]].
    + rewrite E'. reflexivity.
    + unfold holds. rewrite E'. eexists. split; [reflexivity|]. apply I. cbn in A. now inversion A.
    + unfold holds. rewrite E'. eexists. split; [reflexivity|]. apply is_list_map. cbn [good] in A. intros x J. rewrite Forall_forall in A. eexists. split; [reflexivity|]. apply I, A, J.
Qed.
Print Assumptions C69_opt_partial.
Lemma at_path_dict p k : forall v x, at_path (p ++ [k])%list v = Some x -> exists d, at_path p v = Some (VDict d).
Proof.
  induction p as [|j p IH]; intros v x X; cbn [app at_path] in *.
  - destruct v; try discriminate X. now eexists.
  - destruct v; try discriminate X. destruct (member j _); [|discriminate X]. now apply IH in X.
Qed.
(** So with at most one target the opt arrives as it was sent exactly if it has
    no availability, or an empty one. *)
Theorem C69_complete_iff_partial :
  forall num n q v o, plain q -> plain v -> good_opt o -> (length (om_targets o) <= 1)%nat ->
    read num (6 + n) (create_opt_xml q v o) (fun x => opt_arrived_but_lists q v o x /\ opt_targets_arrived o x /\
      (availability_arrived o x <-> forall cs, om_availability o = Some cs -> cs = [])).
Proof.
  intros num n q v o Q V G L. destruct (C69_opt_partial num n q v o Q V G L) as (p & P & A & B & C). exists p. split; [exact P|]. split; [exact A|]. split; [exact B|].
  unfold availability_arrived. destruct (om_availability o) as [cs|]; [|split; [discriminate|intros _; exact C]]. destruct cs as [|c cs].
  - split; [intros _ cs E; congruence|intros _; exact C].
  - assert (H : exists y, at_path ["vavailability"; "components"] (VDict p) = Some (VDict y)).
    { destruct cs as [|c2 cs]; destruct C as (x & X & _); exact (at_path_dict ["vavailability"; "components"] _ _ _ X). }
    split; [|intros H'; now specialize (H' _ eq_refl)]. intros (x & X & (vs & -> & _)). destruct H as (y & Y). congruence.
Qed.
Print Assumptions C69_complete_iff_partial.
(** An opt with two or more targets is never read at all. *)
Theorem C69_several_targets_partial :
  forall num n q v o, plain q -> plain v -> good_opt o -> (2 <= length (om_targets o))%nat ->
    parse_payload num (6 + n) (create_opt_xml q v o) = Raise TypeError.
Proof. intros num n q v o. apply create_opt_several. Qed.
Print Assumptions C69_several_targets_partial.
(** The answers and the cancellation. *)
Theorem C69_other_messages_partial :
  forall num n name r q id v, good_answer r -> an_request_id r = Some q -> plain id -> plain v ->
    read num (2 + n) (opt_answer_xml name r id) (fun x => holds x ["response"] (answer_arrived r (is_text q)) /\ holds x ["opt_id"] (is_text id)) /\
    read num (2 + n) (cancel_opt_xml id v) (fun x => holds x ["opt_id"] (is_text id) /\ holds x ["ven_id"] (is_text v) /\ at_path ["request_id"] x = Some VNone).
Proof.
  intros num n name r q id v R Q P V. split.
  - eexists. split; [now apply opt_answer_parsed|]. rewrite Q. split; here. now apply answer_arrived_members.
  - eexists. split; [now apply cancel_opt_parsed|]. repeat split; here.
Qed.
Print Assumptions C69_other_messages_partial.

Definition dev (s : string) : Xml.target := Xml.mk_target None None (Some s) None None.
Lemma full_dev s : plain s -> full_target (dev s).
Proof. intros P k f J. unfold kinds in J. simpl in J. repeat (destruct J as [J|J]; [injection J as <- <-; cbn; first [exact I|exact P]|]). contradiction. Qed.
Definition sample_opt (av : option (list (datetime * Z))) (ts : list Xml.target) : opt_message :=
  mk_opt_message "opt_1" "optOut" "x-schedule" (Some "http://market") av moment (match av with Some _ => None | None => Some ("event_1", 3) end) ts (Some "Thermostat").
Lemma good_sample_opt av ts : good (Forall good_component) av -> Forall full_target ts -> good_opt (sample_opt av ts).
Proof.
  intros A T. split; [plain_text|]. split; [plain_text|]. split; [plain_text|]. split; [cbn [good om_market sample_opt]; plain_text|]. split; [exact A|]. split; [exact good_moment|].
  split; [destruct av; cbn; [exact I|plain_text]|]. split; [exact T|cbn [good om_mrid sample_opt]; plain_text].
Qed.
Lemma good_sample_component : good_component (moment, 3600000000).
Proof. split; [exact good_moment|repeat split; cbn; lia]. Qed.
Example C69_example :
  good_opt (sample_opt None [dev "dev_1"]) /\ good_opt (sample_opt (Some [(moment, 3600000000); (moment, 60000000)]) []) /\
  good_opt (sample_opt None [dev "dev_1"; dev "dev_2"]) /\ (2 <= length (om_targets (sample_opt None [dev "dev_1"; dev "dev_2"])))%nat.
Proof.
  assert (D1 : full_target (dev "dev_1")) by (apply full_dev; plain_text). assert (D2 : full_target (dev "dev_2")) by (apply full_dev; plain_text).
  split; [apply good_sample_opt; [exact I|apply Forall_cons; [exact D1|apply Forall_nil]]|]. split; [|split; [|cbn; lia]].
  - apply good_sample_opt; [|apply Forall_nil]. cbn [good]. apply Forall_cons; [exact good_sample_component|]. apply Forall_cons; [|apply Forall_nil]. split; [exact good_moment|repeat split; cbn; lia].
  - apply good_sample_opt; [exact I|]. apply Forall_cons; [exact D1|apply Forall_cons; [exact D2|apply Forall_nil]].
Qed.
(** Both reasons. *)
Theorem C69_several_targets_refuted : ~ C69_full.
Proof.
  intros F. set (num := mk_numbers (fun _ => true) (fun _ => Ok 0) (fun _ => "")). assert (Q : plain "q1") by plain_text. assert (V : plain "ven_1") by plain_text.
  destruct C69_example as (_ & _ & G & L). destruct (F num 0%nat _ _ _ Q V G) as (p & P & _). rewrite (C69_several_targets_partial num 0 _ _ _ Q V G L) in P. discriminate.
Qed.
Print Assumptions C69_several_targets_refuted.
Theorem C69_availability_refuted : ~ (forall num n q v o, plain q -> plain v -> good_opt o -> (length (om_targets o) <= 1)%nat ->
  read num (6 + n) (create_opt_xml q v o) (availability_arrived o)).
Proof.
  intros F. set (num := mk_numbers (fun _ => true) (fun _ => Ok 0) (fun _ => "")). assert (Q : plain "q1") by plain_text. assert (V : plain "ven_1") by plain_text.
  destruct C69_example as (_ & G & _). match type of G with good_opt ?o => assert (L : (length (om_targets o) <= 1)%nat) by (cbn; lia) end.
  destruct (F num 0%nat _ _ _ Q V G L) as (p & P & A). destruct (C69_complete_iff_partial num 0 _ _ _ Q V G L) as (p' & P' & _ & _ & A').
  rewrite P in P'. injection P' as <-. pose proof (proj1 A' A _ eq_refl) as N. discriminate N.
Qed.
Print Assumptions C69_availability_refuted.

(** ** C70 *)
(** Whatever is on the list was acknowledged: an opt for which the VTN's answer
    is no acknowledgement is not on it afterwards. *)
Definition C70_full : Prop :=
  forall st st1 st2 a g now rest r out,
    step st (Create a g now rest (Ok tt)) = Some (st1, Sent) -> ~ acknowledged r ->
    step st1 (Answer (length (waiting st)) r) = Some (st2, out) -> opts st2 = opts st.
Definition sample_args : create_args := mk_ca "optOut" "economic" (Some (SStr "event_1")) false (Some 0) (Some []) (Some "Thermostat") None.
Lemma acceptable_sample : acceptable sample_args.
Proof.
  split; [simpl; tauto|]. split; [simpl; tauto|]. split; [|split; [split; discriminate|discriminate]].
  intros m E. injection E as <-. left. apply inb_in. reflexivity.
Qed.
(** An opt that the VTN does not acknowledge stays on the list. *)
Theorem C70_unacknowledged_refuted : ~ C70_full.
Proof.
  intros F. specialize (F initial (mk_st [mk_opt (SStr "o1") 0] [PCreate (mk_opt (SStr "o1") 0)]) (mk_st [mk_opt (SStr "o1") 0] []) sample_args "o1" 0 0%nat Failure (Returned (SBool false))).
  assert (E : [mk_opt (SStr "o1") 0] = @nil opt); [|discriminate E]. apply F; [reflexivity|intros (v & E); discriminate E|reflexivity].
Qed.
Print Assumptions C70_unacknowledged_refuted.
(** It always does, and the call says so: False, or an exception if there was
    no answer at all; otherwise the VTN's own opt_id is returned. *)
Theorem C70_create_partial :
  forall st a g now rest,
    (acceptable a -> exists id, names a g id /\ forall r,
       step st (Create a g now rest (Ok tt)) = Some (mk_st (opts st ++ [mk_opt id rest]) (waiting st ++ [PCreate (mk_opt id rest)]), Sent) /\
       exists st2 out, step (mk_st (opts st ++ [mk_opt id rest]) (waiting st ++ [PCreate (mk_opt id rest)])) (Answer (length (waiting st)) r) = Some (st2, out) /\
         opts st2 = (opts st ++ [mk_opt id rest])%list /\ waiting st2 = waiting st /\
         (forall v, r = Answered (Some v) -> out = Returned v) /\ (r = Failure \/ r = Answered None -> out = Returned (SBool false)) /\ (r = NoReply -> out = Raised TypeError)) /\
    (~ acceptable a -> forall rendered, step st (Create a g now rest rendered) = Some (st, Raised ValueError)).
Proof.
  intros st a g now rest. split.
  - intros A. exists (new_id a g). split; [now apply new_id_names|]. intros r. split; [cbn [step]; now rewrite create_acceptable|].
    cbn [step waiting]. unfold take. rewrite nth_error_app2 by lia. rewrite PeanoNat.Nat.sub_diag. cbn [nth_error].
    eexists _, _. split; [reflexivity|]. cbn [opts waiting]. split; [reflexivity|]. split; [|].
    + rewrite firstn_app, PeanoNat.Nat.sub_diag, firstn_all. cbn [firstn]. rewrite skipn_all2; [now rewrite !app_nil_r|]. rewrite app_length. cbn. lia.
    + split; [intros v ->; reflexivity|split; [intros [-> | ->]; reflexivity|intros ->; reflexivity]].
  - intros A rendered. cbn [step]. now rewrite create_refused.
Qed.
Print Assumptions C70_create_partial.
(** In every execution in which no cancellation is acknowledged, the list is
    made up of all the opts ever made, in order, whatever the VTN answered. *)
Theorem C70_grows_partial :
  forall acts st outs, unacknowledged acts -> ClientOpts.run initial acts = Some (st, outs) -> made acts (opts st).
Proof. intros acts st outs U R. destruct (unacknowledged_run acts initial st outs U R) as (l & M & E). now rewrite E. Qed.
Print Assumptions C70_grows_partial.
(** With openleadr's own VTN that is every execution: no opt is ever removed
    and no creation succeeds. *)
Theorem C70_own_vtn_partial :
  forall acts st outs, (forall n r, In (Answer n r) acts -> exists handled, r = own_vtn "EiOpt" handled) -> ClientOpts.run initial acts = Some (st, outs) ->
    made acts (opts st) /\ forall v, In (Returned v) outs -> v = SBool false.
Proof.
  intros acts st outs O R. split.
  - eapply C70_grows_partial; [|exact R]. intros n r I (v & E). destruct (O n r I) as (h & ->). discriminate E.
  - revert R. generalize initial. revert st outs. induction acts as [|a acts IH]; intros st outs s R v I; cbn [ClientOpts.run] in R; [injection R as _ <-; contradiction|].
    destruct (step s a) as [[st1 out]|] eqn:S; [|discriminate]. destruct (ClientOpts.run st1 acts) as [[st2 outs']|] eqn:R'; [|discriminate]. injection R as _ <-.
    destruct I as [->|I]; [|eapply IH; [|exact R'|exact I]; intros n r J; apply (O n r); now right].
    destruct a as [a g now rest r|id r|n r]; cbn [step] in S.
    + destruct (acceptable_dec a) as [A|A]; [rewrite create_acceptable in S by exact A; injection S as _ S; destruct r; discriminate|].
      rewrite create_refused in S by exact A. injection S as _ S. discriminate.
    + unfold cancel_opt in S. destruct (find _ _); [destruct r; injection S as _ S; discriminate|]. injection S as _ S. congruence.
    + destruct (O n r (or_introl eq_refl)) as (h & ->). change (own_vtn "EiOpt" h) with Failure in S. destruct (take n (waiting s)) as [[[o|o] w]|]; [|..|discriminate]; cbn [cancelled created] in S; injection S as _ S; congruence.
Qed.
Print Assumptions C70_own_vtn_partial.
(** Cancelling asks the VTN for the first opt on the list that has the id; when
    none has it, the call returns False at once. *)
Theorem C70_cancel_partial :
  forall st id,
    ((forall o, In o (opts st) -> o_id o <> id) -> forall r, step st (Cancel id r) = Some (st, Returned (SBool false))) /\
    (forall a o b, opts st = (a ++ o :: b)%list -> o_id o = id -> (forall x, In x a -> o_id x <> id) ->
       step st (Cancel id (Ok tt)) = Some (mk_st (opts st) (waiting st ++ [PCancel o]), Sent)).
Proof.
  intros st id. assert (E : forall o, scalar_eqb (o_id o) id = true <-> o_id o = id) by (intros o; apply scalar_eqb_eq). split.
  - intros N r. cbn [step]. unfold cancel_opt. destruct (find _ _) as [o|] eqn:F; [|reflexivity]. apply find_some in F as [I F]. apply E in F. now elim (N o I).
  - intros a o b L O N. cbn [step]. unfold cancel_opt. replace (find (fun x => scalar_eqb (o_id x) id) (opts st)) with (Some o); [reflexivity|]. rewrite L. clear L. induction a as [|x a IH]; cbn [app find].
    + now rewrite (proj2 (E o) O).
    + destruct (scalar_eqb (o_id x) id) eqn:X; [apply E in X; elim (N x (or_introl eq_refl) X)|]. apply IH. intros y I. apply N. now right.
Qed.
Print Assumptions C70_cancel_partial.
(** The answer to a cancellation, whatever happened in the meantime: if it is
    acknowledged and the opt is still there, its first occurrence goes and
    nothing else, and the call returns True; if the opt is gone the call fails;
    if it is not acknowledged nothing is removed. *)
Theorem C70_cancelled_partial :
  forall st w1 o w2 r st2 out, waiting st = (w1 ++ PCancel o :: w2)%list -> step st (Answer (length w1) r) = Some (st2, out) ->
    waiting st2 = (w1 ++ w2)%list /\
    (acknowledged r -> In o (opts st) -> exists a b, opts st = (a ++ o :: b)%list /\ opts st2 = (a ++ b)%list /\ ~ In o a /\ out = Returned (SBool true)) /\
    (acknowledged r -> ~ In o (opts st) -> opts st2 = opts st /\ out = Raised ValueError) /\
    (~ acknowledged r -> opts st2 = opts st /\ out <> Returned (SBool true)).
Proof.
  intros st w1 o w2 r st2 out W S. cbn [step] in S. unfold take in S. rewrite W, nth_error_app2, PeanoNat.Nat.sub_diag in S by lia. cbn [nth_error] in S.
  assert (E : (firstn (length w1) (w1 ++ PCancel o :: w2) ++ skipn (Datatypes.S (length w1)) (w1 ++ PCancel o :: w2))%list = (w1 ++ w2)%list).
  { rewrite firstn_app, PeanoNat.Nat.sub_diag, firstn_all. cbn [firstn]. rewrite app_nil_r, skipn_app, skipn_all2 by lia. cbn [app].
    replace (Datatypes.S (length w1) - length w1)%nat with 1%nat by lia. reflexivity. }
  rewrite E in S. clear E. pose proof (remove_first_spec o (opts st)) as RF.
  destruct r as [| |[v|]]; cbn [cancelled] in S.
  - injection S as <- <-. cbn [waiting opts]. split; [reflexivity|]. split; [intros (v & V); discriminate|split; [intros (v & V); discriminate|intros _; split; [reflexivity|discriminate]]].
  - injection S as <- <-. cbn [waiting opts]. split; [reflexivity|]. split; [intros (v & V); discriminate|split; [intros (v & V); discriminate|intros _; split; [reflexivity|discriminate]]].
  - assert (A : acknowledged (Answered (Some v))) by now exists v. destruct (remove_first o (opts st)) as [l|] eqn:X; injection S as <- <-; cbn [waiting opts].
    + destruct RF as (a & b & L & -> & N). split; [reflexivity|]. split; [intros _ _; exists a, b; auto|]. split; [intros _ I; elim I; rewrite L; apply in_or_app; right; now left|intros N'; contradiction].
    + split; [reflexivity|]. split; [intros _ I; contradiction|split; [auto|intros N'; contradiction]].
  - injection S as <- <-. cbn [waiting opts]. split; [reflexivity|]. split; [intros (v & V); discriminate|split; [intros (v & V); discriminate|intros _; split; [reflexivity|discriminate]]].
Qed.
Print Assumptions C70_cancelled_partial.
(** Two opts; the first is cancelled twice before the VTN answers: the second
    cancellation fails. *)
Example C70_example :
  acceptable sample_args /\ unacknowledged [Create sample_args "o1" 0 0 (Ok tt); Answer 0 Failure] /\
  ClientOpts.run initial [Create sample_args "o1" 0 0 (Ok tt); Create sample_args "o2" 0 1 (Ok tt); Answer 0 (Answered (Some (SStr "o1"))); Answer 0 Failure;
               Cancel (SStr "o1") (Ok tt); Cancel (SStr "o1") (Ok tt); Answer 0 (Answered (Some (SStr "o1"))); Answer 0 (Answered (Some (SStr "o1")))] =
    Some (mk_st [mk_opt (SStr "o2") 1] [], [Sent; Sent; Returned (SStr "o1"); Returned (SBool false); Sent; Sent; Returned (SBool true); Raised ValueError]).
Proof.
  split; [exact acceptable_sample|]. split; [|reflexivity]. intros n r [E|[E|[]]] (v & V); [discriminate|]. injection E as <- <-. discriminate.
Qed.
