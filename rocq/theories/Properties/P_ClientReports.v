(** C52-C56, C63: the VEN's reports. *)
From Coq Require Import ZArith String List Bool Lia.
From Verif.Base Require Import Result Dict PyStr ListExtra.
From Verif.Model Require Import Text Measurements Cron Preflight ClientReports.
From Verif.Spec Require Import ClientReportSpec.
From Verif.Proofs Require Import ClientReportProofs CancelReportProofs.
Import ListNotations.
Local Open Scope string_scope.
Local Open Scope Z_scope.

(** ** A VEN with one report of two data points, for the examples *)
Definition rep1 : crep := mk_crep "TELEMETRY_USAGE" (SStr "s1") "incremental"
  [mk_cdesc (SStr "a") None (10 * second_us) hour_us SNone "Direct Read" "usage"; mk_cdesc (SStr "b") None (10 * second_us) hour_us SNone "Direct Read" "usage"].
Definition ven0 : cstate := mk_cstate [] [rep1] [((SStr "s1", SStr "a"), 0%nat); ((SStr "s1", SStr "b"), 1%nat)] [] [] [] 0 [] [].
Definition want (id : string) (back gran : Z) (rids : list string) : creq :=
  mk_creq (SStr id) (SStr "s1") (Some (back * second_us)) (Some (gran * second_us)) (map (fun r => mk_sp (SStr r) None) rids) None.
Definition seven : nat -> scalar -> result sample := fun c _ => Ok (Number 100 (SInt (7 + Z.of_nat c))).

(** ** C52 *)
Definition C52_full : Prop := forall call quotient qs st st' x, create_report call quotient qs st = (st', Ok x) ->
  exists valid rs, without_those marked_invalid qs valid /\ cs_requests st' = (cs_requests st ++ rs)%list /\
    Forall2 (fun q r => exists rids g, selects st q rids g /\ stored_as q g r /\ rids_of st' r = rids) valid rs.

Lemma valid_without qs : Forall (fun q => exists b, is_invalid q = Ok b) qs ->
  without_those marked_invalid qs (filter (fun q => match is_invalid q with Ok b => negb b | _ => false end) qs).
Proof.
  intros F. induction F as [|q qs [b B] F IH]; [constructor|]. cbn [filter]. rewrite B. pose proof (is_invalid_marked q b B) as M. destruct b; cbn [negb].
  - apply wt_drop; [now apply M|exact IH].
  - apply wt_keep; [|exact IH]. intros H. apply M in H. discriminate.
Qed.

Lemma without_fun {A} (P : A -> Prop) l a b : without_those P l a -> without_those P l b -> a = b.
Proof. intros H. revert b. induction H; intros b K; inversion K; subst; try contradiction; auto. f_equal. auto. Qed.

Lemma Forall2_of_nth {A B} (P : A -> B -> Prop) (l : list A) (m : list B) : length m = length l ->
  (forall i a, nth_error l i = Some a -> exists b, nth_error m i = Some b /\ P a b) -> Forall2 P l m.
Proof.
  revert m. induction l as [|a l IH]; intros [|b m] L H; try discriminate; [constructor|].
  constructor.
  - destruct (H 0%nat a eq_refl) as (b' & E & p). simpl in E. now injection E as <-.
  - apply IH; [simpl in L; lia|]. intros i x N. exact (H (S i) x N).
Qed.

(** All that create_report does to the stored requests. *)
Theorem C52_requests_partial : forall call quotient qs st st' x, create_report call quotient qs st = (st', Ok x) ->
  exists valid rs ridss, without_those marked_invalid qs valid /\ cs_requests st' = (cs_requests st ++ rs)%list /\
    Forall2 (fun q rids => exists g, selects st q rids g) valid ridss /\
    Forall2 (fun q r => exists rids g, selects st q rids g /\ stored_as q g r /\ rids_of st' r = concat ridss) valid rs /\
    (forall r, In r (cs_requests st) -> (rr_frame r < length (cs_frames st))%nat -> rids_of st' r = rids_of st r) /\
    snd x = map cq_id qs /\ (fst x = 452 <-> exists q, In q qs /\ marked_invalid q) /\ (fst x = 200 <-> forall q, In q qs -> ~ marked_invalid q).
Proof.
  intros call quotient qs st st' x. unfold create_report. cbv zeta. set (st1 := set_frames _ st).
  destruct (process_all call quotient (length (cs_frames st)) false qs st1 false) as [s2 [inv|]] eqn:P; [|discriminate].
  cbn [bind]. intros E. apply pair_equal_spec in E as [<- E]. injection E as <-.
  assert (F : nth_error (cs_frames st1) (length (cs_frames st)) = Some (mk_frame [] SNone)).
  { unfold st1; cbn [cs_frames set_frames]. rewrite nth_error_app2, Nat.sub_diag by lia. reflexivity. }
  destruct (process_all_ok _ _ _ _ _ _ _ _ _ _ F P) as (ridss & rs & valid & H1 & H2 & H3 & H4 & H5 & H6 & [id H7] & H8 & H9 & H10 & H11 & H12).
  exists valid, rs, ridss. split; [subst valid; now apply valid_without|]. split; [exact H3|].
  split; [|split; [|split; [|split; [reflexivity|]]]].
  - apply Forall2_of_nth; [exact H4|]. intros i q N. destruct (H6 i q N) as (rids & g & job & N1 & S & _). exists rids. split; [exact N1|]. exists g. exact S.
  - apply Forall2_of_nth; [exact H5|]. intros i q N. destruct (H6 i q N) as (rids & g & job & N1 & S & N2). eexists. split; [exact N2|]. exists rids, g.
    split; [exact S|]. split; [repeat split|]. unfold rids_of. cbn [rr_frame]. now rewrite H7.
  - intros r I L. unfold rids_of. rewrite H8 by lia. unfold st1; cbn [cs_frames set_frames]. now rewrite nth_error_app1.
  - assert (M : inv = true <-> exists q, In q qs /\ marked_invalid q).
    { rewrite H12. split; [intros [H|(q & I & Q)]; [discriminate|]; exists q; split; [exact I|]; now apply (is_invalid_marked q true Q)|].
      intros (q & I & Q). right. exists q. split; [exact I|]. rewrite Forall_forall in H1. destruct (H1 q I) as [b B]. apply (is_invalid_marked q b B) in Q. now subst. }
    destruct inv; cbn [fst].
    + split; [split; [intros _; now apply M|reflexivity]|]. split; [discriminate|]. intros N. destruct (proj1 M eq_refl) as (q & I & Q). elim (N q I Q).
    + split; [split; [discriminate|intros H; apply M in H; discriminate]|]. split; [|reflexivity]. intros _ q I Q. assert (false = true) by (apply M; eauto). discriminate.
Qed.
Print Assumptions C52_requests_partial.

(** Exactly as asked when at most one request of the message is not marked
    invalid. *)
Theorem C52_one_request_partial : forall call quotient qs q st st' x, create_report call quotient qs st = (st', Ok x) -> without_those marked_invalid qs [q] ->
  exists rids g r, selects st q rids g /\ cs_requests st' = (cs_requests st ++ [r])%list /\ stored_as q g r /\ rids_of st' r = rids.
Proof.
  intros call quotient qs q st st' x E W. destruct (C52_requests_partial _ _ _ _ _ _ E) as (valid & rs & ridss & W' & R & F1 & F2 & _).
  assert (V := without_fun _ _ _ _ W' W). subst valid. inversion F1 as [|? rids ? ? [g S] F1']; subst. inversion F1'; subst. inversion F2 as [|? r ? ? (rids' & g' & S' & ST & RI) F2']; subst. inversion F2'; subst.
  simpl in RI. rewrite app_nil_r in RI.
  exists rids, g, r. split; [exact S|]. split; [exact R|]. split; [|exact RI].
  assert (GG : g = g'); [|now subst].
  clear - S S'. assert (SF : forall heap rep, forall g0 ps r1 g1, selected heap rep g0 ps r1 g1 -> forall r2 g2, selected heap rep g0 ps r2 g2 -> g1 = g2).
  { intros heap rep g0 ps r1 g1 H. induction H; intros r2 g2 K; inversion K; subst; eauto.
    - exfalso. match goal with N : forall rd, ~ _, A : names _ _ _ ?rd, B : permitted _ ?rd |- _ => exact (N rd (conj A B)) end.
    - exfalso. match goal with N : forall rd, ~ _, A : names _ _ _ ?rd, B : permitted _ ?rd |- _ => exact (N rd (conj A B)) end.
    - match goal with A : names _ _ _ ?a, B : names _ _ _ ?b |- _ => assert (a = b) by (destruct A, B; eapply first_fun; eassumption); subst end. eauto. }
  destruct S as [(rep & A & B)|(A & _ & ->)], S' as [(rep' & A' & B')|(A' & _ & ->)]; try reflexivity.
  - assert (rep = rep') by (eapply first_fun; eassumption). subst. eauto.
  - apply first_In in A as [A A2]. elim (A' _ A A2).
  - apply first_In in A' as [A' A2]. elim (A _ A' A2).
Qed.
Print Assumptions C52_one_request_partial.

(** Two requests in one message share their r_ids. *)
Theorem C52_refuted : ~ C52_full.
Proof.
  intros H.
  destruct (create_report seven Z.div [want "r1" 60 60 ["a"]; want "r2" 60 60 ["b"]] ven0) as [st' x] eqn:E.
  vm_compute in E. injection E as E1 E2. 
  assert (E : create_report seven Z.div [want "r1" 60 60 ["a"]; want "r2" 60 60 ["b"]] ven0 = (st', x)) by (subst; vm_compute; reflexivity).
  subst x. destruct (H _ _ _ _ _ _ E) as (valid & rs & W & R & F).
  assert (V : valid = [want "r1" 60 60 ["a"]; want "r2" 60 60 ["b"]]).
  { assert (NI : forall q, is_invalid q = Ok false -> ~ marked_invalid q) by (intros q Q M; apply (is_invalid_marked q false Q) in M; discriminate).
    eapply without_fun; [exact W|]. apply wt_keep; [apply NI; vm_compute; reflexivity|]. apply wt_keep; [apply NI; vm_compute; reflexivity|constructor]. }
  subst valid. inversion F as [|? r ? ? HH _]; subst rs. destruct HH as (rids & g & S & ST & RI). rewrite <- E1 in R, RI. simpl in R. injection R as <- _. vm_compute in RI. subst rids.
  destruct S as [(rep & A & B)|(_ & A & _)]; [|discriminate]. inversion B; subst; match goal with X : selected _ _ _ [] (_ :: _) _ |- _ => inversion X end.
Qed.
Print Assumptions C52_refuted.

Example C52_example : without_those marked_invalid [want "r1" 60 60 ["a"; "zzz"; "b"]] [want "r1" 60 60 ["a"; "zzz"; "b"]] /\
  exists st' x r, create_report seven Z.div [want "r1" 60 60 ["a"; "zzz"; "b"]] ven0 = (st', Ok x) /\ cs_requests st' = [r] /\ rids_of st' r = [SStr "a"; SStr "b"].
Proof.
  split.
  - apply wt_keep; [|constructor]. intros M. apply (is_invalid_marked (want "r1" 60 60 ["a"; "zzz"; "b"]) false) in M; [discriminate|vm_compute; reflexivity].
  - exists (fst (create_report seven Z.div [want "r1" 60 60 ["a"; "zzz"; "b"]] ven0)), (200, [SStr "r1"]), (mk_rr (SStr "r1") (SStr "s1") (Some (60 * second_us)) 0 (Some (60 * second_us)) (Some 0%nat)).
    split; [vm_compute; reflexivity|]. split; vm_compute; reflexivity.
Qed.

(** ** C53 *)
(** With floor(b/g) >= 1, as stated.  [quotient] is Python's int(a/b). *)
Definition C53_statement (applies : Z -> Z -> Prop) : Prop := forall quotient id request report b g st evs vs, quotient b g = b / g ->
  first (fun r => rr_id r = id) (cs_requests st) request -> first (fun r => cr_specifier r = rr_specifier request) (cs_reports st) report ->
  cr_mode report = "incremental" -> rr_back request = Some b -> rr_gran request = Some g -> 0 < g -> applies b g ->
  coherent st -> rids_of st request <> [] -> get scalar_eqb id (cs_incomplete st) = None ->
  Forall2 (fun call ints => one_each call st (rr_specifier request) (rids_of st request) ints) (of_request id evs) vs ->
  exists reports rest, queued_for id (run quotient evs st) = (queued_for id st ++ reports)%list /\ batches id report (Z.to_nat (b / g)) vs reports rest /\
    match rest with
    | [] => get scalar_eqb id (cs_incomplete (run quotient evs st)) = None
    | _ => exists og, get scalar_eqb id (cs_incomplete (run quotient evs st)) = Some og /\ reports_exactly id report (concat rest) og
    end.
Definition C53_full : Prop := C53_statement (fun b g => 1 <= b / g).

(** The samplings of other requests, with any outcome, may come between. *)
Theorem C53_batches_partial : C53_statement (fun b g => 2 <= b / g).
Proof.
  intros quotient id request report b g st evs vs Q A1 A2 M B G GP GB C R P F.
  assert (LT : g < b). { destruct (Z.lt_ge_cases g b) as [L|L]; [exact L|]. assert (b / g <= g / g) by (apply Z.div_le_mono; lia). rewrite Z.div_same in H by lia. lia. }
  apply (run_batches quotient id request report b g (Z.to_nat (b / g)) st); auto.
  - split; [exact A1|]. split; [exact A2|]. auto.
  - rewrite Q, Z2Nat.id by lia. reflexivity.
  - lia.
Qed.
Print Assumptions C53_batches_partial.

(** A report back duration of exactly the granularity: every sampling is a
    report. *)
Theorem C53_every_sampling_partial : C53_statement (fun b g => b = g).
Proof.
  intros quotient id request report b g st evs vs Q A1 A2 M B G GP GB C R P F. subst b.
  destruct (run_direct quotient id request report g g st) with (evs := evs) (vs := vs) as (reports & H1 & H2 & H3); auto; [split; auto|lia|lia|].
  exists reports, []. split; [exact H1|]. split; [|exact H3]. exists (map (fun v => [v]) vs). rewrite Z.div_same by lia. split.
  - rewrite app_nil_r. clear. induction vs; [reflexivity|]. simpl. now f_equal.
  - split; [simpl; lia|]. apply Forall2_map_l. eapply Forall2_impl; [|exact H2]. intros v og H. split; [reflexivity|]. simpl. now rewrite app_nil_r.
Qed.
Print Assumptions C53_every_sampling_partial.

Definition sampled1 (k : Z) (gran : Z) (rids : list string) : cstate :=
  fst (create_report seven Z.div [want "r1" k gran rids] ven0).
Definition req1 (k gran : Z) : rr := mk_rr (SStr "r1") (SStr "s1") (Some (k * second_us)) 0 (Some (gran * second_us)) (Some 0%nat).

(** With granularity < report back duration < 2 * granularity nothing is ever
    sent: the only value is already the complete report, which was never kept
    (KeyError). *)
Theorem C53_refuted : ~ C53_full.
Proof.
  intros H.
  specialize (H Z.div (SStr "r1") (req1 90 60) rep1 (90 * second_us) (60 * second_us) (sampled1 90 60 ["a"]) [(SStr "r1", seven)] [[mk_oint (SStr "a") 100 (SInt 7) None]] eq_refl).
  destruct H as (reports & rest & Q & (groups & V & L & F) & _).
  - vm_compute. apply f_here. reflexivity.
  - vm_compute. apply f_here. reflexivity.
  - reflexivity.
  - reflexivity.
  - reflexivity.
  - reflexivity.
  - vm_compute. discriminate.
  - split; vm_compute; [constructor|intros ? ? []].
  - vm_compute. discriminate.
  - vm_compute. reflexivity.
  - vm_compute. constructor; [|constructor]. constructor; [|constructor]. exists 0%nat, 100, (SInt 7). auto.
  - vm_compute in Q. subst reports. inversion F; subst. simpl in V. destruct rest; [discriminate|]. vm_compute in L. lia.
Qed.
Print Assumptions C53_refuted.

Example C53_example :
  let st := sampled1 120 60 ["a"; "b"] in let evs := [(SStr "r1", seven); (SStr "other", seven); (SStr "r1", seven); (SStr "r1", seven)] in
  first (fun r => rr_id r = SStr "r1") (cs_requests st) (req1 120 60) /\ coherent st /\ rids_of st (req1 120 60) = [SStr "a"; SStr "b"] /\
  map (fun og => length (og_intervals og)) (queued_for (SStr "r1") (run Z.div evs st)) = [4%nat].
Proof.
  cbv zeta. split; [vm_compute; apply f_here; reflexivity|]. split; [split; vm_compute; [constructor|intros ? ? []]|]. split; vm_compute; reflexivity.
Qed.

(** ** C54 *)
Definition C54_full : Prop := forall creates answers queue, (forall og, In og queue -> creates og = Ok tt) ->
  worker creates answers 0 queue = (queue, asked answers 0 queue, Ok tt).

(** As long as the reports can be formed and the server never answers with an
    empty body, every report is sent once, in order, whatever else happens;
    cancellations are never acted upon. *)
Theorem C54_sent_partial : forall creates answers n queue,
  (forall og, In og queue -> creates og = Ok tt) -> (forall m og, In og queue -> answers m og <> Ok Nothing) ->
  (forall m og t c, In og queue -> answers m og = Ok (Pair t c) -> t <> Some "cancel_report") ->
  worker creates answers n queue = (queue, [], Ok tt).
Proof. intros. now apply worker_all. Qed.
Print Assumptions C54_sent_partial.

(** In any case what is sent is a part of the queue from its front. *)
Theorem C54_order_partial : forall creates answers n queue, exists rest, queue = (fst (fst (worker creates answers n queue)) ++ rest)%list.
Proof. intros. destruct (worker_prefix creates answers queue n) as (rest & E & _). eauto. Qed.
Print Assumptions C54_order_partial.

Definition og1 : outgoing := mk_outgoing (SStr "r1") (SStr "s1") "TELEMETRY_USAGE" [] None.

Theorem C54_cancel_refuted : ~ C54_full.
Proof.
  intros H. specialize (H (fun _ => Ok tt) (fun _ _ => Ok (Pair (Some "oadrUpdatedReport") (Some (SStr "r1")))) [og1] (fun _ _ => eq_refl)). discriminate.
Qed.
Print Assumptions C54_cancel_refuted.

(** An empty answer ends the worker, although no answer asks for a
    cancellation. *)
Theorem C54_empty_answer_refuted : ~ (forall creates answers queue, (forall og, In og queue -> creates og = Ok tt) -> asked answers 0 queue = [] ->
  worker creates answers 0 queue = (queue, [], Ok tt)).
Proof. intros H. specialize (H (fun _ => Ok tt) (fun _ _ => Ok Nothing) [og1; og1] (fun _ _ => eq_refl) eq_refl). discriminate. Qed.
Print Assumptions C54_empty_answer_refuted.

Example C54_example : worker (fun _ => Ok tt) (fun n _ => match n with O => Raise ValueError | _ => Ok (Pair (Some "oadrUpdatedReport") None) end) 0 [og1; og1] = ([og1; og1], [], Ok tt).
Proof. reflexivity. Qed.

(** ** C55 *)
Definition registered (q : areq) (st' : cstate) (s r : string) : Prop :=
  get ckey_eqb (SStr s, SStr r) (cs_callbacks st') = Some (q_callback q) /\
  exists rep d, In rep (cs_reports st') /\ cr_specifier rep = SStr s /\ cr_name rep = q_name q /\ In d (cr_descs rep) /\ cd_rid d = SStr r /\ rated (q_rate q) (cd_lo d) (cd_hi d).
Definition C55_full : Prop := forall q ns nr st st' s r, add_report q ns nr st = (st', Ok (s, r)) ->
  (exists s', s = Some s' /\ registered q st' s' r) /\ (forall a m, nth_error (cs_heap st) a = Some m -> nth_error (cs_heap st') a = Some m).

(** Exactly when it succeeds; a refusal changes nothing. *)
Theorem C55_accepts : forall q ns nr st, ((exists x, snd (add_report q ns nr st) = Ok x) <-> accepted q st) /\
  forall e, snd (add_report q ns nr st) = Raise e -> fst (add_report q ns nr st) = st.
Proof. intros. split; [apply add_report_accepts|apply add_report_refuses]. Qed.
Print Assumptions C55_accepts.

(** What it does, completely: one report gets one more description; every other
    report, callback and measurement is as it was, except for the scale of the
    measurement that is used. *)
Theorem C55_effect : forall q ns nr st st' s r, add_report q ns nr st = (st', Ok (s, r)) ->
  or_generated (q_rid q) nr r /\
  exists i rep d,
    nth_error (cs_reports st') i = Some (mk_crep (cr_name rep) (cr_specifier rep) (cr_mode rep) (cr_descs rep ++ [d])) /\
    (forall j, j <> i -> nth_error (cs_reports st') j = nth_error (cs_reports st) j) /\
    ((nth_error (cs_reports st) i = Some rep /\ extends q rep /\ (forall j x, (j < i)%nat -> nth_error (cs_reports st) j = Some x -> ~ extends q x) /\ s = q_specifier q) \/
     (i = length (cs_reports st) /\ (forall x, In x (cs_reports st) -> ~ extends q x) /\
      exists s', s = Some s' /\ or_generated (q_specifier q) ns s' /\ rep = mk_crep (q_name q) (SStr s') (q_mode q) [])) /\
    cd_rid d = SStr r /\ rated (q_rate q) (cd_lo d) (cd_hi d) /\ cd_resource d = q_resource q /\ cd_reading d = q_reading q /\ cd_type d = q_type q /\
    ((q_name q = "TELEMETRY_STATUS" /\ cd_meas d = None /\ cs_heap st' = cs_heap st) \/
     (q_name q <> "TELEMETRY_STATUS" /\ exists a m, cd_meas d = Some a /\ measures (q_measurement q) (q_unit q) (q_scale q) (cs_heap st) a m /\
       nth_error (cs_heap st') a = Some (set_md_scale (q_scale q) m) /\ forall j, j <> a -> nth_error (cs_heap st') j = nth_error (cs_heap st) j)) /\
    get ckey_eqb (cr_specifier rep, SStr r) (cs_callbacks st') = Some (q_callback q) /\
    (forall key, key <> (cr_specifier rep, SStr r) -> get ckey_eqb key (cs_callbacks st') = get ckey_eqb key (cs_callbacks st)).
Proof. intros. now apply add_report_ok in H. Qed.
Print Assumptions C55_effect.

(** The returned identifiers are those of the registration when the specifier
    id is given, or a new report is made. *)
Theorem C55_returned_partial : forall q ns nr st st' s r, add_report q ns nr st = (st', Ok (s, r)) ->
  (exists x, q_specifier q = Some x /\ x <> "") \/ (forall rep, In rep (cs_reports st) -> cr_name rep <> q_name q) ->
  exists s', s = Some s' /\ registered q st' s' r.
Proof.
  intros q ns nr st st' s r E H. destruct (add_report_ok _ _ _ _ _ _ _ E) as (_ & i & rep & d & N & _ & W & D1 & D2 & _ & _ & _ & _ & CB & _).
  assert (X : exists s', s = Some s' /\ cr_specifier rep = SStr s' /\ cr_name rep = q_name q).
  { destruct W as [(N' & X & _ & ->)|(_ & _ & s' & -> & _ & ->)].
    - destruct H as [(x & Q & NE)|H]; [|apply nth_error_In in N'; elim (H _ N'); apply X]. exists x. split; [exact Q|]. split; [now apply X|apply X].
    - exists s'. auto. }
  destruct X as (s' & -> & S & NM). exists s'. split; [reflexivity|]. split; [now rewrite <- S|]. apply nth_error_In in N.
  exists (add_desc d rep), d. split; [exact N|]. split; [exact S|]. split; [exact NM|]. split; [apply in_or_app; right; now left|]. auto.
Qed.
Print Assumptions C55_returned_partial.

Definition ask_usage (rid measurement scale : string) (cb : nat) : areq :=
  mk_areq cb false (SStr "device") (MText measurement) "incremental" None (Some rid) "TELEMETRY_USAGE" "Direct Read" "usage" RateDefault (Some scale) None.
Definition ven_empty : cstate := mk_cstate predefined_heap [] [] [] [] [] 0 [] [].
Definition ven_voltage : cstate := fst (add_report (ask_usage "r1" "voltage" "k" 0) "spec" "x" ven_empty).

(** The second data point of a report: no specifier id is returned. *)
Theorem C55_specifier_refuted : ~ C55_full.
Proof.
  intros H. assert (E : add_report (ask_usage "r2" "current" "none" 1) "other" "x" ven_voltage = (fst (add_report (ask_usage "r2" "current" "none" 1) "other" "x" ven_voltage), Ok (None, "r2"))) by (vm_compute; reflexivity).
  destruct (H _ _ _ _ _ _ _ E) as [(s' & F & _) _]. discriminate.
Qed.
Print Assumptions C55_specifier_refuted.

(** A second data point with the same measurement changes the scale of the first. *)
Theorem C55_scale_refuted : ~ (forall q ns nr st st' s r, add_report q ns nr st = (st', Ok (s, r)) -> forall a m, nth_error (cs_heap st) a = Some m -> nth_error (cs_heap st') a = Some m).
Proof.
  intros H. assert (E : add_report (ask_usage "r2" "voltage" "M" 1) "other" "x" ven_voltage = (fst (add_report (ask_usage "r2" "voltage" "M" 1) "other" "x" ven_voltage), Ok (None, "r2"))) by (vm_compute; reflexivity).
  destruct (nth_error (cs_heap ven_voltage) 0) as [m|] eqn:N; [|vm_compute in N; discriminate]. pose proof (H _ _ _ _ _ _ _ E 0%nat m N) as K.
  rewrite <- N in K. vm_compute in K. discriminate.
Qed.
Print Assumptions C55_scale_refuted.

Example C55_example : accepted (ask_usage "r1" "voltage" "k" 0) ven_empty /\
  snd (add_report (ask_usage "r1" "voltage" "k" 0) "spec" "x" ven_empty) = Ok (Some "spec", "r1") /\ length (cs_reports ven_voltage) = 1%nat.
Proof.
  split; [|split; vm_compute; reflexivity]. apply (add_report_accepts _ "spec" "x"). exists (Some "spec", "r1"). vm_compute. reflexivity.
Qed.

(** ** C56 *)
Definition C56_statement (ok : cstate -> list creq -> Prop) : Prop := forall call quotient st r follow st' m, history ok st ->
  cancel_end call quotient r follow st = (st', Ok m) ->
  fst m = rr_id r /\ follow = Some (snd m) /\
  (forall n j, In (n, j) (cs_jobs st') <-> In (n, j) (cs_jobs st) /\ recurring_for (rr_id r) j = false) /\
  cs_requests st' = filter (fun x => negb (scalar_eqb (rr_id x) (rr_id r))) (cs_requests st) /\
  cs_reports st' = cs_reports st /\ cs_callbacks st' = cs_callbacks st /\ cs_frames st' = cs_frames st /\
  (snd m = false -> cs_pending st' = cs_pending st /\ cs_incomplete st' = cs_incomplete st).
Definition C56_full : Prop := C56_statement any_ids.

(** In every history in which no request id is used twice. *)
Theorem C56_cancelled_partial : C56_statement new_ids.
Proof.
  intros call quotient st r follow st' m H E. apply history_inv in H. destruct (cancel_end_ok _ _ _ _ _ _ _ H E) as (f & -> & -> & _ & R & J & A & B & C & D & _ & P).
  cbn [fst snd]. split; [reflexivity|]. split; [reflexivity|]. split; [|auto 10].
  intros n j. rewrite J, filter_In. cbn [snd]. rewrite negb_true_iff. reflexivity.
Qed.
Print Assumptions C56_cancelled_partial.

(** The cancellation succeeds while the request is stored with its job. *)
Theorem C56_succeeds : forall call quotient r st, In r (cs_requests st) -> (forall n, rr_job r = Some n -> exists j, In (n, j) (cs_jobs st)) ->
  exists st', cancel_end call quotient r (Some false) st = (st', Ok (rr_id r, false)).
Proof. exact cancel_end_succeeds. Qed.
Print Assumptions C56_succeeds.

(** An unknown id changes nothing; a known one is found, and its report
    updated once more. *)
Theorem C56_begin : forall call quotient id st,
  ((forall r, In r (cs_requests st) -> rr_id r <> id) <-> cancel_begin call quotient id st = (st, Ok None)) /\
  forall st' r, cancel_begin call quotient id st = (st', Ok (Some r)) -> first (fun r => rr_id r = id) (cs_requests st) r /\ cs_requests st' = cs_requests st /\ cs_jobs st' = cs_jobs st.
Proof.
  intros call quotient id st. split.
  - split; [apply cancel_unknown|]. unfold cancel_begin. destruct (find_request id (cs_requests st)) as [r|] eqn:F.
    + destruct (rids_of st r); [discriminate|]. destruct (update_report call quotient id st) as [s0 [u|]]; discriminate.
    + intros _. apply (find_none_iff _ (fun r => rr_id r = id) (scalar_eqb_P rr_id id)). exact F.
  - intros st' r. unfold cancel_begin. destruct (find_request id (cs_requests st)) as [r'|] eqn:F; [|discriminate].
    apply (find_first _ _ (scalar_eqb_P rr_id id)) in F. destruct (rids_of st r').
    + intros E. injection E as <- <-. auto.
    + pose proof (update_same call quotient id st) as (A1 & A2 & A3 & A4 & A5 & A6 & A7). destruct (update_report call quotient id st) as [s0 [u|]]; [|discriminate].
      cbn [bind]. intros E. injection E as <- <-. auto.
Qed.
Print Assumptions C56_begin.

(** When the VTN uses an id again, the second job goes on after a cancellation. *)
Definition twice : cstate := fst (create_report seven Z.div [want "r1" 60 60 ["a"]; want "r1" 60 60 ["b"]] ven0).
Theorem C56_refuted : ~ C56_full.
Proof.
  intros H. assert (HI : history any_ids twice) by (apply h_create; [apply h_start; reflexivity|exact I]).
  set (r := mk_rr (SStr "r1") (SStr "s1") (Some (60 * second_us)) 0 (Some (60 * second_us)) (Some 0%nat)).
  assert (E : cancel_end seven Z.div r (Some false) twice = (fst (cancel_end seven Z.div r (Some false) twice), Ok (SStr "r1", false))) by (vm_compute; reflexivity).
  destruct (H _ _ _ _ _ _ _ HI E) as (_ & _ & J & _).
  specialize (J 1%nat (Recurring (SStr "r1") (cron_config (60 * second_us) false))). destruct J as [J _].
  assert (F : false = true); [|discriminate]. rewrite <- (proj2 (J ltac:(vm_compute; left; reflexivity))). vm_compute. reflexivity.
Qed.
Print Assumptions C56_refuted.

Definition two_jobs : cstate := fst (create_report seven Z.div [want "r1" 60 60 ["a"]; want "r2" 60 60 ["b"]] ven0).
Example C56_example : history new_ids two_jobs /\
  map snd (cs_jobs (fst (cancel_end seven Z.div (mk_rr (SStr "r1") (SStr "s1") (Some (60 * second_us)) 0 (Some (60 * second_us)) (Some 0%nat)) (Some false) two_jobs)))
  = [Recurring (SStr "r2") (cron_config (60 * second_us) false)].
Proof.
  split; [|vm_compute; reflexivity]. apply h_create; [apply h_start; reflexivity|]. vm_compute. constructor; [intros [H|[]]; discriminate|]. constructor; [intros []|constructor].
Qed.

(** ** C63 *)
(** Every request of a message with a granularity and a report back duration
    becomes a recurring job under its id. *)
Definition C63_full : Prop := forall call quotient qs st st' x q d g rids g', create_report call quotient qs st = (st', Ok x) -> In q qs -> ~ marked_invalid q ->
  (exists r, In r (cs_reports st) /\ cr_specifier r = cq_specifier q) -> selects st q rids g' -> ~ asks_once q rids g' -> cq_back q = Some d -> 0 < d -> cq_gran q = Some g -> g <> 0 ->
  exists n c, In (n, Recurring (cq_id q) c) (cs_jobs st').

(** A message with one request. *)
Theorem C63_one_request_partial : forall call quotient q st st' x, create_report call quotient [q] st = (st', Ok x) -> ~ marked_invalid q ->
  (exists r, In r (cs_reports st) /\ cr_specifier r = cq_specifier q) ->
  exists rids g, selects st q rids g /\ nth_error (cs_frames st') (length (cs_frames st)) = Some (mk_frame rids (cq_id q)) /\
    ((exists d t, ~ asks_once q rids g /\ cq_back q = Some d /\ 0 < d /\ samples_every g (cq_back q) t /\
        cs_jobs st' = (cs_jobs st ++ [(cs_next_job st, Recurring (cq_id q) (cron_config t false))])%list /\ cs_pending st' = cs_pending st)
     \/ (asks_once q rids g \/ exists d, cq_back q = Some d /\ d <= 0) /\
        ((exists t, cq_at q = Some t /\ cs_jobs st' = (cs_jobs st ++ [(cs_next_job st, Once (length (cs_frames st)) t)])%list /\ cs_pending st' = cs_pending st /\
            forall call', run_job call' quotient (Once (length (cs_frames st)) t) st' = update_report call' quotient (cq_id q) st')
         \/ (cq_at q = None /\ cs_jobs st' = cs_jobs st /\ exists st1, update_report call quotient (cq_id q) st1 = (st', Ok tt) /\ cs_pending st1 = cs_pending st))).
Proof.
  intros call quotient q st st' x. unfold create_report. cbv zeta. set (st1 := set_frames _ st). cbn [process_all].
  destruct (process call quotient (length (cs_frames st)) false q st1) as [[s2 sg] [b|]] eqn:P; [|discriminate].
  cbn [bind]. intros E NM EX. apply pair_equal_spec in E as [<- E].
  assert (F : nth_error (cs_frames st1) (length (cs_frames st)) = Some (mk_frame [] SNone)).
  { unfold st1; cbn [cs_frames set_frames]. rewrite nth_error_app2, Nat.sub_diag by lia. reflexivity. }
  destruct (process_ok _ _ _ _ _ _ _ _ _ _ F P) as [I R]. destruct b; [elim NM; now apply (is_invalid_marked q true I)|].
  destruct R as (rids & g & job & S & R1 & R2 & R3 & R4 & R5 & R6). cbn [fr_rids app] in R5.
  assert (FR : nth_error (cs_frames s2) (length (cs_frames st)) = Some (mk_frame rids (cq_id q))).
  { rewrite R5. exact (nth_update_same _ (fun _ => mk_frame rids (cq_id q)) _ _ F). }
  exists rids, g. split; [exact S|]. split; [exact FR|].
  destruct R6 as [(N & _)|(_ & SG & R6)]; [destruct EX as (r & IR & ER); elim (N r IR ER)|].
  assert (AO : sg = true <-> asks_once q rids g) by (unfold asks_once; rewrite SG; split; [intros [H|H]; [discriminate|exact H]|now right]).
  destruct R6 as [(d & -> & B & D & L & -> & J & NX & IC & PD)|(AS & -> & R6)].
  - left. exists d, (interval_of g (cq_back q)). split; [intros H; apply AO in H; discriminate|]. split; [exact B|]. split; [exact D|]. split; [|split; [exact J|exact PD]].
    unfold samples_every, interval_of. rewrite B. destruct g as [z|]; [destruct (z =? 0) eqn:Z0|].
    + apply Z.eqb_eq in Z0. subst. right. auto.
    + apply Z.eqb_neq in Z0. left. exists z. auto.
    + right. auto.
  - right. split; [destruct AS as [AS|AS]; [left; now apply AO|now right]|]. destruct R6 as [(t & T & J & NX & IC & PD)|(T & s3 & U & _ & _ & _ & PD & J & _)].
    + left. exists t. split; [exact T|]. split; [exact J|]. split; [exact PD|]. intros call'. cbn [run_job]. rewrite FR. reflexivity.
    + right. split; [exact T|]. split; [exact J|]. exists s3. auto.
Qed.
Print Assumptions C63_one_request_partial.

(** After a request for a single report, a later request of the same message is
    not scheduled. *)
Theorem C63_refuted : ~ C63_full.
Proof.
  intros H. set (qs := [want "r1" 60 0 ["a"]; want "r2" 60 60 ["b"]]).
  assert (E : create_report seven Z.div qs ven0 = (fst (create_report seven Z.div qs ven0), Ok (200, [SStr "r1"; SStr "r2"]))) by (vm_compute; reflexivity).
  destruct (H _ _ _ _ _ _ (want "r2" 60 60 ["b"]) (60 * second_us) (60 * second_us) [SStr "b"] (Some (60 * second_us)) E) as (n & c & I).
  - right. now left.
  - intros M. apply (is_invalid_marked (want "r2" 60 60 ["b"]) false) in M; [discriminate|vm_compute; reflexivity].
  - exists rep1. split; [now left|reflexivity].
  - left. exists rep1. split; [apply f_here; reflexivity|]. unfold want; cbn [cq_payloads cq_gran map].
    eapply se_take with (rd := mk_cdesc (SStr "b") None (10 * second_us) hour_us SNone "Direct Read" "usage").
    + split; [|discriminate]. apply f_later; [discriminate|]. apply f_here. reflexivity.
    + intros y Y. injection Y as <-. right. split; vm_compute; discriminate.
    + constructor.
  - intros (_ & A & _). discriminate.
  - reflexivity.
  - reflexivity.
  - reflexivity.
  - discriminate.
  - vm_compute in I. exact I.
Qed.
Print Assumptions C63_refuted.

(** Two single reports at given times: both jobs report for the second request. *)
Definition at_time (id : string) (rid : string) (t : Z) : creq := mk_creq (SStr id) (SStr "s1") (Some 0) (Some 0) [mk_sp (SStr rid) None] (Some t).
Definition both : cstate := fst (create_report seven Z.div [at_time "r1" "a" 5; at_time "r2" "b" 6] ven0).
Theorem C63_late_binding : cs_jobs both = [(0%nat, Once 0 5); (1%nat, Once 0 6)] /\
  forall call quotient j, In j (map snd (cs_jobs both)) -> run_job call quotient j both = update_report call quotient (SStr "r2") both.
Proof.
  split; [vm_compute; reflexivity|]. intros call quotient j I. assert (J : map snd (cs_jobs both) = [Once 0 5; Once 0 6]) by (vm_compute; reflexivity). rewrite J in I.
  assert (F : nth_error (cs_frames both) 0 = Some (mk_frame [SStr "a"; SStr "b"] (SStr "r2"))) by (vm_compute; reflexivity).
  destruct I as [<-|[<-|[]]]; unfold run_job; rewrite F; reflexivity.
Qed.
Print Assumptions C63_late_binding.

Example C63_example : snd (create_report seven Z.div [want "r1" 60 60 ["a"]] ven0) = Ok (200, [SStr "r1"]) /\
  cs_jobs (fst (create_report seven Z.div [want "r1" 60 60 ["a"]] ven0)) = [(0%nat, Recurring (SStr "r1") (cron_config (60 * second_us) false))].
Proof. split; vm_compute; reflexivity. Qed.
