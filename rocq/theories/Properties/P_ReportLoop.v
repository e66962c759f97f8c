(** C78: from the VTN's report request to the VEN and back. *)
From Coq Require Import ZArith String List Bool Lia.
From Verif.Base Require Import Result Dict PyStr ListExtra.
From Verif.Model Require Import Text Cron Preflight Reports ReportService.
From Verif.Model Require ClientReports.
From Verif.Spec Require Import ReportSpec ReportServiceSpec ReportLoopSpec.
From Verif.Spec Require ClientReportSpec.
From Verif.Proofs Require Import ReportProofs ReportServiceProofs.
From Verif.Proofs Require ClientReportProofs.
From Verif.Properties Require Import P_ReportService.
From Verif.Properties Require P_ClientReports.
Import ListNotations.
Local Open Scope string_scope.
Local Open Scope Z_scope.

(** ** The request: every data point that the VEN samples has a callback. *)
Lemma selected_rids heap report g ps rids g' : ClientReportSpec.selected heap report g ps rids g' -> forall r, In r rids -> In r (map ClientReports.sp_rid ps).
Proof. intros S. induction S; intros r0 I; [contradiction|right; auto|]. destruct I as [<-|I]; [now left|right; auto]. Qed.

Lemma last_demand (ds : list demand) r : In r (map m_rid ds) -> exists l1 d l2, ds = (l1 ++ d :: l2)%list /\ m_rid d = r /\ ~ In r (map m_rid l2).
Proof.
  induction ds as [|d ds IH]; [contradiction|]. intros I. destruct (in_dec scalar_eq_dec r (map m_rid ds)) as [J|J].
  - destruct (IH J) as (l1 & x & l2 & -> & E & N). exists (d :: l1), x, l2. auto.
  - destruct I as [I|I]; [|contradiction]. exists [], d, ds. auto.
Qed.

Lemma expected_in fresh i reports dss qs q : expected fresh i reports dss qs -> In q qs ->
  exists k r ds, nth_error reports k = Some r /\ nth_error dss k = Some ds /\ requests_exactly (fresh (i + k)%nat) r ds q /\
    exists l d, ds = (l ++ [d])%list /\ rq_granularity q = m_sampling d /\ rq_back q = m_back d.
Proof.
  intros E. induction E as [i|i r rs dss qs E IH|i r rs ds dss q' qs NE RX LD E IH]; intros I; [contradiction| |].
  - destruct (IH I) as (k & r' & ds & A & B & C & D). exists (S k), r', ds. rewrite <- plus_n_Sm. auto.
  - destruct I as [->|I].
    + exists 0%nat, r, ds. rewrite Nat.add_0_r. auto.
    + destruct (IH I) as (k & r' & ds' & A & B & C & D). exists (S k), r', ds'. rewrite <- plus_n_Sm. auto.
Qed.

(** The VTN's registration is answered with [qs]; the VEN gets one of them.
    Then the VEN stores it under the same id, every data point it will sample
    has a callback at the VTN under that id, and it is sampled and reported at
    the rates that the VTN's handler gave (for the last data point). *)
Theorem C78_asked_partial : forall hist m v fresh reports dss qs q cq call quotient st st' x,
  asks m v fresh reports dss -> snd (handle m (after hist)) = Registered (Ok qs) -> In q qs -> conveys q cq ->
  ClientReports.create_report call quotient [cq] st = (st', Ok x) -> ~ ClientReportSpec.marked_invalid cq ->
  exists r, ClientReports.cs_requests st' = (ClientReports.cs_requests st ++ [r])%list /\ ClientReports.rr_id r = SStr (rq_id q) /\
    ClientReports.rr_back r = Some (rq_back q) /\
    (exists k ds l d, nth_error dss k = Some ds /\ ds = (l ++ [d])%list /\ rq_id q = fresh k /\ rq_granularity q = m_sampling d /\ rq_back q = m_back d) /\
    forall rid, In rid (ClientReports.rids_of st' r) -> exists c, given (hist ++ [m]) (rq_id q, rid) c.
Proof.
  intros hist m v fresh reports dss qs q cq call quotient st st' x A E IQ (C1 & C2 & C3 & C4 & C5) CR NI.
  destruct (register_ok m v fresh reports dss (after hist) A) as (qs' & E' & EX & _). rewrite E in E'. injection E' as <-.
  destruct (P_ClientReports.C52_one_request_partial _ _ _ _ _ _ _ CR (ClientReportSpec.wt_keep _ cq [] [] NI (ClientReportSpec.wt_nil _))) as (rids & g & r & SE & RQ & ST & RI).
  destruct (expected_in _ _ _ _ _ _ EX IQ) as (k & rep & ds & K1 & K2 & (R1 & R2 & R3) & l & d & D1 & D2 & D3). cbn [Nat.add] in R1.
  exists r. destruct ST as (S1 & S2 & S3 & S4). split; [exact RQ|]. split; [congruence|]. split; [congruence|]. split; [exists k, ds, l, d; auto|].
  intros rid I. rewrite RI in I.
  assert (IP : In rid (map ClientReports.sp_rid (ClientReports.cq_payloads cq))).
  { destruct SE as [(report & _ & SE)|(_ & -> & _)]; [eapply selected_rids; eassumption|contradiction]. }
  rewrite C5, map_map in IP. cbn [ClientReports.sp_rid] in IP.
  assert (ID : In rid (map m_rid ds)).
  { clear - R3 IP. induction R3 as [|d p ds ps (E & _) F IH]; [contradiction|]. cbn [map] in *. destruct IP as [<-|IP]; [left; now symmetry|right; auto]. }
  destruct (last_demand ds rid ID) as (l1 & d' & l2 & DS & DR & DN). exists (m_callback d'). eapply given_last.
  exists fresh, reports, dss, k, ds. split; [exact A|]. split; [exact K2|]. split; [exact R1|]. exists l1, d', l2. auto.
Qed.

(** ** The values *)
Lemma values_of_app r a b : values_of r (a ++ b) = (values_of r a ++ values_of r b)%list.
Proof. unfold values_of. now rewrite filter_app, map_app. Qed.
Lemma values_for_app c a b : values_for c (a ++ b) = (values_for c a ++ values_for c b)%list.
Proof. unfold values_for. now rewrite flat_map_app. Qed.

Lemma carried og r rid : carries og r -> pairs_of rid (rc_intervals r) = values_of rid (ClientReports.og_intervals og).
Proof.
  intros (_ & ->). unfold pairs_of, values_of. induction (ClientReports.og_intervals og) as [|i l IH]; [reflexivity|]. cbn [map filter ri_rid].
  destruct (scalar_eq_dec (ClientReports.oi_rid i) rid); cbn [map]; [now f_equal|exact IH].
Qed.

(** One report. *)
Lemma one_delivery hist user v report ds c rid : Forall answered hist -> (forall d, user d = Ok tt) ->
  given hist (rc_request report, rid) c -> (forall key, given hist key c -> key = (rc_request report, rid)) ->
  snd (handle (Update user v [report]) (after hist)) = Delivered ds (Ok tt) -> values_for c ds = pairs_of rid (rc_intervals report).
Proof.
  intros A U G UQ E. destruct (C73_delivery hist user v [report] A (ex_intro _ _ (ex_intro _ _ G)) U) as (dss & E' & F).
  rewrite E in E'. injection E' as ->. inversion F as [|? d ? ? R F']; subst. inversion F'; subst. cbn [concat]. rewrite app_nil_r.
  destruct R as (rids & ND & IFF & R).
  assert (GF : forall key a b, given hist key a -> given hist key b -> a = b).
  { intros key a b Ga Gb. destruct (callbacks_of_life hist A) as [_ H]. apply H in Ga, Gb. congruence. }
  assert (NIN : ~ In rid (map ri_rid (rc_intervals report)) -> pairs_of rid (rc_intervals report) = []).
  { unfold pairs_of. generalize (rc_intervals report). intros l. induction l as [|i l IH]; [reflexivity|]. cbn [map filter]. intros N.
    destruct (scalar_eq_dec (ri_rid i) rid) as [e|e]; [elim N; now left|]. apply IH. intros J. apply N. now right. }
  assert (STEP : forall rs ds', NoDup rs -> (forall r, In r rs -> exists c', given hist (rc_request report, r) c') ->
    Forall2 (fun r d => exists c', given hist (rc_request report, r) c' /\ d = Deliver c' (pairs_of r (rc_intervals report))) rs ds' ->
    values_for c ds' = if in_dec scalar_eq_dec rid rs then pairs_of rid (rc_intervals report) else []).
  { intros rs ds' N HG F2. induction F2 as [|r d' rs ds' (c' & Gc & ->) F2 IH].
    - reflexivity.
    - inversion N as [|? ? NI ND']; subst. cbn [values_for flat_map]. fold (values_for c ds'). rewrite IH by (auto using in_cons). clear IH.
      destruct (Nat.eqb_spec c' c) as [->|NE].
      + pose proof (UQ _ Gc) as EQ. injection EQ as ->. destruct (in_dec scalar_eq_dec rid rs); [contradiction|]. rewrite app_nil_r.
        destruct (in_dec scalar_eq_dec rid (rid :: rs)) as [_|X]; [reflexivity|elim X; now left].
      + cbn [app]. destruct (in_dec scalar_eq_dec rid rs) as [I|I], (in_dec scalar_eq_dec rid (r :: rs)) as [J|J]; try reflexivity.
        * elim J. now right.
        * destruct J as [->|J]; [|contradiction]. elim NE. eapply GF; eassumption. }
  rewrite (STEP rids d ND) by (try assumption; intros r I; apply IFF in I; apply I).
  destruct (in_dec scalar_eq_dec rid rids) as [I|I]; [reflexivity|]. symmetry. apply NIN. intros J. apply I. apply IFF. split; [exact J|]. eauto.
Qed.

(** The claim: of the samplings [vs] of a request, those that make up complete
    reports reach the VTN's callback for each data point: all the values, in
    order, each once. *)
Definition C78_statement (applies : Z -> Z -> Prop) : Prop := forall hist quotient rq request report b g st evs vs,
  Forall answered hist -> quotient b g = b / g ->
  ClientReportSpec.first (fun r => ClientReports.rr_id r = SStr rq) (ClientReports.cs_requests st) request ->
  ClientReportSpec.first (fun r => ClientReports.cr_specifier r = ClientReports.rr_specifier request) (ClientReports.cs_reports st) report ->
  ClientReports.cr_mode report = "incremental" -> ClientReports.rr_back request = Some b -> ClientReports.rr_gran request = Some g -> 0 < g -> applies b g ->
  ClientReportProofs.coherent st -> ClientReports.rids_of st request <> [] -> get scalar_eqb (SStr rq) (ClientReports.cs_incomplete st) = None ->
  Forall2 (fun call ints => ClientReportSpec.one_each call st (ClientReports.rr_specifier request) (ClientReports.rids_of st request) ints)
    (ClientReportSpec.of_request (SStr rq) evs) vs ->
  exists reports kept rest, ClientReportSpec.queued_for (SStr rq) (ClientReportSpec.run quotient evs st) = (ClientReportSpec.queued_for (SStr rq) st ++ reports)%list /\
    vs = (kept ++ rest)%list /\ (length rest < Z.to_nat (b / g))%nat /\
    forall msgs user v ds, Forall2 carries reports msgs -> (forall d, user d = Ok tt) -> served user v hist msgs ds ->
    forall rid c, given hist (rq, rid) c -> (forall key, given hist key c -> key = (rq, rid)) ->
    values_for c ds = values_of rid (concat kept).
Definition C78_full : Prop := C78_statement (fun b g => 1 <= b / g).

Lemma loop_from_batches (P : Z -> Z -> Prop) : P_ClientReports.C53_statement P -> C78_statement P.
Proof.
  intros C53 hist quotient rq request report b g st evs vs A Q F1 F2 M B G GP AP CO RN IC SA.
  destruct (C53 quotient (SStr rq) request report b g st evs vs Q F1 F2 M B G GP AP CO RN IC SA) as (reports & rest & QF & (groups & VS & LR & F) & _).
  exists reports, (concat groups), rest. split; [exact QF|]. split; [exact VS|]. split; [exact LR|].
  intros msgs user v ds FC U SV rid c GV UQ. clear - F FC SV GV UQ A U. revert msgs ds FC SV. induction F as [|gr og groups reports (_ & RE) F IH]; intros msgs ds FC SV.
  - inversion FC; subst. inversion SV; subst. reflexivity.
  - inversion FC as [|? r ? msgs' CA FC']; subst. inversion SV as [|? ? ds1 ds2 E SV']; subst. destruct RE as (R1 & _ & _ & R4 & _).
    assert (RQ : rc_request r = rq) by (destruct CA as [CA _]; rewrite R1 in CA; now injection CA).
    rewrite values_for_app. cbn [concat]. rewrite concat_app, values_of_app. f_equal; [|now apply (IH msgs')].
    subst rq. rewrite (one_delivery hist user v r ds1 c rid A U GV UQ E), (carried og r rid CA). now rewrite R4.
Qed.

Theorem C78_values_partial : C78_statement (fun b g => 2 <= b / g).
Proof. exact (loop_from_batches _ P_ClientReports.C53_batches_partial). Qed.
Theorem C78_every_sampling_partial : C78_statement (fun b g => b = g).
Proof. exact (loop_from_batches _ P_ClientReports.C53_every_sampling_partial). Qed.

(** And the VTN does handle them all. *)
Theorem C78_served : forall hist user v msgs, Forall answered hist -> (exists key c, given hist key c) -> (forall d, user d = Ok tt) -> exists ds, served user v hist msgs ds.
Proof.
  intros hist user v msgs A G U. induction msgs as [|r msgs (ds & IH)]; [exists []; constructor|].
  destruct (C73_delivery hist user v [r] A G U) as (dss & E & _). exists (concat dss ++ ds)%list. now constructor.
Qed.

(** With a report back duration between one and two times the granularity no
    value ever arrives. *)
Definition loop_hist : list message := [ex_register "v" "r1" 5 ["a"; "b"]].
Lemma loop_answered : Forall answered loop_hist.
Proof. constructor; [now apply ex_answered|constructor]. Qed.
Lemma loop_given : given loop_hist ("r1", SStr "a") 5 /\ forall key, given loop_hist key 5 -> key = ("r1", SStr "a").
Proof.
  destruct (callbacks_of_life loop_hist loop_answered) as [_ H]. split; [apply H; reflexivity|]. intros [q r] G. apply H in G.
  assert (CB : report_callbacks (srv (after loop_hist)) = [(("r1", SStr "a"), 5%nat); (("r1", SStr "b"), 6%nat)]) by reflexivity.
  rewrite CB in G. cbn [get] in G. destruct (key_eqb (q, r) ("r1", SStr "a")) eqn:K; [now apply key_eqb_eq in K|].
  destruct (key_eqb (q, r) ("r1", SStr "b")); discriminate.
Qed.

Theorem C78_refuted : ~ C78_full.
Proof.
  intros H.
  destruct (H loop_hist Z.div "r1" (P_ClientReports.req1 90 60) P_ClientReports.rep1 (90 * second_us) (60 * second_us) (P_ClientReports.sampled1 90 60 ["a"])
    [(SStr "r1", P_ClientReports.seven)] [[ClientReports.mk_oint (SStr "a") 100 (SInt 7) None]] loop_answered eq_refl) as (reports & kept & rest & Q & V & L & D).
  - vm_compute. apply ClientReportSpec.f_here. reflexivity.
  - vm_compute. apply ClientReportSpec.f_here. reflexivity.
  - reflexivity.
  - reflexivity.
  - reflexivity.
  - reflexivity.
  - vm_compute. discriminate.
  - split; vm_compute; [constructor|intros ? ? []].
  - vm_compute. discriminate.
  - vm_compute. reflexivity.
  - vm_compute. constructor; [|constructor]. constructor; [|constructor]. exists 0%nat, 100, (SInt 7). auto.
  - vm_compute in Q. subst reports. assert (R : rest = []) by (destruct rest; [reflexivity|vm_compute in L; lia]). subst rest.
    rewrite app_nil_r in V. subst kept. destruct loop_given as [G U].
    specialize (D [] (fun _ => Ok tt) (SStr "v") [] (Forall2_nil _) (fun _ => eq_refl) (sv_nil _ _ _) (SStr "a") 5%nat G U). discriminate D.
Qed.

(** Two samplings of two data points per report. *)
Example C78_example :
  let st := P_ClientReports.sampled1 120 60 ["a"; "b"] in
  let evs := [(SStr "r1", P_ClientReports.seven); (SStr "r1", P_ClientReports.seven); (SStr "r1", P_ClientReports.seven)] in
  let msgs := map (fun og => mk_received "r1" (map (fun i => mk_rinterval (ClientReports.oi_rid i) (ClientReports.oi_dtstart i) (ClientReports.oi_value i)) (ClientReports.og_intervals og)))
    (ClientReportSpec.queued_for (SStr "r1") (ClientReportSpec.run Z.div evs st)) in
  Forall answered loop_hist /\ given loop_hist ("r1", SStr "a") 5 /\ length msgs = 1%nat /\
  exists ds, served (fun _ => Ok tt) (SStr "v") loop_hist msgs ds /\ values_for 5 ds = [(100, SInt 7); (100, SInt 7)] /\ values_for 6 ds = [(100, SInt 8); (100, SInt 8)].
Proof.
  cbv zeta. split; [apply loop_answered|]. split; [apply loop_given|]. split; [vm_compute; reflexivity|].
  eexists. split; [vm_compute; eapply sv_next; [vm_compute; reflexivity|apply sv_nil]|]. split; vm_compute; reflexivity.
Qed.

(** The request as the VEN gets it. *)
Definition loop_offer : offered :=
  mk_offered "METADATA_TELEMETRY_USAGE" "s1" [mk_desc (SStr "a") "Direct Read" (SStr "res") (Some ("Voltage", "V", "none")) (Some (10 * second_us, 60 * second_us))].
Definition loop_register : message := Register (ex_ids "r1") (ex_handler 5) (SStr "v") (Some [loop_offer]).

Lemma loop_asks : asks loop_register (SStr "v") (ex_ids "r1") [loop_offer] [[mk_demand (SStr "a") 5 (10 * second_us) (10 * second_us)]].
Proof.
  apply asks_all with (ess := [[ETuple [Plain (SStr "a"); Callback 5; Delta (10 * second_us)]]]).
  - apply ex_ids_injective.
  - constructor; [|constructor]. eapply an_compact with (status := false) (raw := [ETuple [Callback (5 + 0); Delta (10 * second_us)]]).
    + reflexivity.
    + reflexivity.
    + intros [|j] rd e D E; simpl in D, E; try (destruct j; discriminate). injection D as <-. injection E as <-.
      exists (mk_args (SStr "v") (SStr "res") "Voltage" (Some "V") (Some "none") (10 * second_us) (60 * second_us)). (split; [|reflexivity]).
      (split; [reflexivity|]); (split; [reflexivity|]); (split; [reflexivity|]); exists "V", "none"; repeat split.
    + simpl. apply (wr_tuple (mk_desc (SStr "a") _ _ _ _)). constructor.
  - reflexivity.
  - constructor; [|constructor]. right. split; [discriminate|]. split.
    + constructor; [constructor|]. constructor.
    + constructor; [|constructor]; eexists; simpl. apply (ds_here (mk_desc (SStr "a") _ _ _ _)).
Qed.

Example C78_asked_example : exists qs q cq st' x,
  snd (handle loop_register (after [])) = Registered (Ok qs) /\ In q qs /\ conveys q cq /\ ~ ClientReportSpec.marked_invalid cq /\
  ClientReports.create_report P_ClientReports.seven Z.div [cq] P_ClientReports.ven0 = (st', Ok x) /\
  exists r, ClientReports.cs_requests st' = [r] /\ ClientReports.rids_of st' r = [SStr "a"].
Proof.
  eexists. eexists.
  exists (ClientReports.mk_creq (SStr "r1") (SStr "s1") (Some (10 * second_us)) (Some (10 * second_us)) [ClientReports.mk_sp (SStr "a") None] None).
  eexists. eexists. split; [vm_compute; reflexivity|]. split; [left; reflexivity|].
  split; [repeat split|]. split; [|split; [vm_compute; reflexivity|eexists; split; vm_compute; reflexivity]].
  intros (p & ps & E & s & IV & a & b & ->). injection E as <- _. cbn [ClientReports.cq_specifier ClientReports.sp_rid] in IV.
  assert (L : forall n s', String.length s' = n -> s' = a ++ "INVALID" ++ b -> (7 <= n)%nat).
  { intros n s' <- ->. clear. induction a as [|x a IH]; simpl; [lia|]. simpl in IH. lia. }
  destruct IV as [IV|IV]; injection IV as IV; [specialize (L 2%nat "s1" eq_refl IV)|specialize (L 1%nat "a" eq_refl IV)]; lia.
Qed.

Print Assumptions C78_asked_partial.
Print Assumptions C78_values_partial.
Print Assumptions C78_every_sampling_partial.
Print Assumptions C78_served.
Print Assumptions C78_refuted.
