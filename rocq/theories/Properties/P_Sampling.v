(** C82: whatever the callbacks return, it is reported, each value once.
    C83: what was sampled for a report that is cancelled is sent. *)
From Coq Require Import ZArith String List Bool Lia.
From Verif.Base Require Import Result Dict PyStr ListExtra.
From Verif.Model Require Import Text Measurements Cron Preflight ClientReports.
From Verif.Spec Require Import ClientReportSpec SamplingSpec.
From Verif.Proofs Require Import ClientReportProofs CancelReportProofs SamplingProofs.
From Verif.Properties Require Import P_ClientReports.
Import ListNotations.
Local Open Scope string_scope.
Local Open Scope Z_scope.

(** The claim: callbacks may return one value or a series.  All that is sampled
    for a request is queued for the VTN or in the report that is being made,
    in order, and that report has fewer values than a complete one. *)
Definition C82_statement (applies : string -> Z -> Z -> Z -> list (list value) -> Prop) : Prop :=
  forall quotient id request report b g st evs vss, coherent st ->
  asked_for id request report st -> cr_mode report = "incremental" \/ cr_mode report = "full" -> rids_of st request <> [] ->
  rr_back request = Some b -> rr_gran request = Some g -> 0 < g -> quotient b g = b / g -> 1 <= b / g -> applies (cr_mode report) b g (Z.of_nat (length (rids_of st request)) * (b / g)) vss ->
  get scalar_eqb id (cs_incomplete st) = None ->
  Forall2 (fun call vs => gathered call st (cr_mode report) (rr_specifier request) (rids_of st request) vs) (of_request id evs) vss ->
  all_values id (run quotient evs st) = (all_values id st ++ concat vss)%list /\
  Z.of_nat (length (held id (run quotient evs st))) < Z.of_nat (length (rids_of st request)) * (b / g).
Definition C82_full : Prop := C82_statement (fun _ _ _ _ _ => True).

(** ** What one sampling does *)
Theorem C82_contents : forall call quotient id st st', coherent st -> update_report call quotient id st = (st', Ok tt) ->
  exists request report vs og, asked_for id request report st /\ gathered call st (cr_mode report) (rr_specifier request) (rids_of st request) vs /\
    og_request og = id /\ seen (og_intervals og) = (seen (held id st) ++ vs)%list /\
    (og_intervals og <> [] -> exists t, og_dtstart og = Some t /\ earliest (og_intervals og) t) /\
    ((~ exists b g, collects request report b g) /\ cs_pending st' = (cs_pending st ++ [og])%list \/
     (exists b g, collects request report b g /\ Z.of_nat (length (og_intervals og)) = Z.of_nat (length (rids_of st request)) * quotient b g) /\
       cs_pending st' = (cs_pending st ++ [og])%list /\ get scalar_eqb id (cs_incomplete st') = None \/
     (exists b g, collects request report b g /\ Z.of_nat (length (og_intervals og)) <> Z.of_nat (length (rids_of st request)) * quotient b g) /\
       cs_pending st' = cs_pending st /\ get scalar_eqb id (cs_incomplete st') = Some og).
Proof.
  intros call quotient id st st' C U. destruct (update_ok _ _ _ _ _ C U) as (request & report & vs & og & A & G & I & S & T & _ & K).
  exists request, report, vs, og. split; [exact A|]. split; [exact G|]. split; [exact I|]. split; [exact S|]. split; [exact T|]. tauto.
Qed.
Print Assumptions C82_contents.

(** The values of a TELEMETRY_USAGE report of single measurements (report back
    duration zero) last as long as the granularity; others have no duration. *)
Theorem C82_durations : forall call quotient id st st', coherent st -> held id st = [] -> update_report call quotient id st = (st', Ok tt) ->
  forall og, (cs_pending st' = (cs_pending st ++ [og])%list \/ get scalar_eqb id (cs_incomplete st') = Some og /\ cs_pending st' = cs_pending st) ->
  exists request report, asked_for id request report st /\
    forall i, In i (og_intervals og) ->
    (oi_duration i <> None -> og_name og = "TELEMETRY_USAGE" /\ cr_mode report <> "full" /\ rr_back request = Some 0 /\ oi_duration i = rr_gran request) /\
    (og_name og = "TELEMETRY_USAGE" -> cr_mode report <> "full" -> rr_back request = Some 0 -> oi_duration i = rr_gran request).
Proof.
  intros call quotient id st st' C H U og Q. destruct (update_ok _ _ _ _ _ C U) as (request & report & vs & og' & A & G & I & S & T & (new & N & F) & K).
  exists request, report. split; [exact A|].
  assert (E : og = og').
  { destruct K as [(_ & P & _)|[(_ & _ & P & _)|(_ & P & GG)]].
    - rewrite P in Q. destruct Q as [Q|[_ Q]]; [apply app_inv_head in Q; now injection Q|]. exfalso. revert Q. clear. intros Q. apply (f_equal (@length _)) in Q. rewrite app_length in Q. simpl in Q. lia.
    - rewrite P in Q. destruct Q as [Q|[_ Q]]; [apply app_inv_head in Q; now injection Q|]. exfalso. revert Q. clear. intros Q. apply (f_equal (@length _)) in Q. rewrite app_length in Q. simpl in Q. lia.
    - rewrite P, GG in Q. destruct Q as [Q|[Q _]]; [|congruence]. exfalso. revert Q. clear. intros Q. apply (f_equal (@length _)) in Q. rewrite app_length in Q. simpl in Q. lia. }
  subst og'. rewrite H in N. cbn [app] in N. rewrite N. rewrite Forall_forall in F. intros i J. specialize (F i J). unfold period in F. split.
  - intros D. destruct (cr_mode report =? "full")%string eqn:M; [congruence|]. apply String.eqb_neq in M. destruct (og_name og =? "TELEMETRY_USAGE")%string eqn:NM; [|congruence]. apply String.eqb_eq in NM.
    destruct (rr_back request) as [[| |]|]; try congruence. auto.
  - intros NM M B. apply String.eqb_neq in M. rewrite M, NM, B in F. exact F.
Qed.
Print Assumptions C82_durations.

(** ** Runs.  Whatever happens for other requests: as long as the samplings of
    this request succeed, nothing is lost, doubled or reordered. *)
Fixpoint succeeds (quotient : Z -> Z -> Z) (id : scalar) (evs : list sampling) (st : cstate) : Prop :=
  match evs with
  | [] => True
  | (i, call) :: evs => (i = id -> snd (update_report call quotient i st) = Ok tt) /\ succeeds quotient id evs (fst (update_report call quotient i st))
  end.

Lemma all_values_other call quotient i id st : i <> id -> coherent st -> all_values id (fst (update_report call quotient i st)) = all_values id st.
Proof.
  intros N C. destruct (update_coherent call quotient i st C) as (_ & sent & S1 & S2). unfold all_values, held. rewrite update_other by (try apply C; congruence). f_equal.
  rewrite (queued_app id _ _ _ S1). rewrite filter_none; [now rewrite app_nil_r|]. intros og I. apply S2 in I. apply scalar_eqb_neq. congruence.
Qed.

Theorem C82_kept_partial : forall quotient id request report evs st, coherent st -> asked_for id request report st ->
  ((exists b g, collects request report b g) \/ get scalar_eqb id (cs_incomplete st) = None) -> succeeds quotient id evs st ->
  exists vss, Forall2 (fun call vs => gathered call st (cr_mode report) (rr_specifier request) (rids_of st request) vs) (of_request id evs) vss /\
    all_values id (run quotient evs st) = (all_values id st ++ concat vss)%list.
Proof.
  intros quotient id request report evs. induction evs as [|[i call] evs IH]; intros st C A P S.
  - exists []. split; [constructor|]. cbn [concat]. now rewrite app_nil_r.
  - cbn [succeeds] in S. destruct S as [S1 S2]. pose proof (update_same call quotient i st) as SM. pose proof (proj1 (update_coherent call quotient i st C)) as CM.
    cbn [run fold_left]. change (fold_left _ evs ?s) with (run quotient evs s). unfold of_request. cbn [filter fst]. destruct (scalar_eqb i id) eqn:EI.
    + apply scalar_eqb_eq in EI. subst i. specialize (S1 eq_refl). destruct (update_report call quotient id st) as [st' x] eqn:U. cbn [fst snd] in *. subst x.
      destruct (update_ok _ _ _ _ _ C U) as (request' & report' & vs & og & A' & G & I & SE & _ & _ & K).
      assert (request' = request) by (destruct A, A'; eapply first_fun; eassumption). subst request'.
      assert (report' = report) by (destruct A, A'; eapply first_fun; eassumption). subst report'.
      assert (V : all_values id st' = (all_values id st ++ vs)%list /\ ((exists b g, collects request report b g) \/ get scalar_eqb id (cs_incomplete st') = None)).
      { unfold all_values, held. destruct K as [(NC & Q & GI)|[(CL & GN & Q & GI)|(CL & Q & GI)]].
        - destruct P as [P|P]; [contradiction|]. split; [|right; rewrite GI, P; reflexivity]. rewrite GI, P. cbn [option_map]. rewrite (queued_app id _ _ _ Q).
          cbn [filter]. rewrite I, scalar_eqb_refl. rewrite flat_map_app. cbn [flat_map]. rewrite app_nil_r, SE. unfold held. rewrite P. cbn [seen map app]. rewrite !app_nil_r. reflexivity.
        - split; [|now right]. rewrite GI. rewrite (queued_app id _ _ _ Q). cbn [filter]. rewrite I, scalar_eqb_refl. rewrite flat_map_app. cbn [flat_map]. rewrite app_nil_r, SE.
          unfold held. cbn [seen map]. rewrite app_nil_r. now rewrite app_assoc.
        - split; [|left; destruct CL as (b & g & CL & _); eauto]. rewrite GI. unfold queued_for. rewrite Q, SE. unfold held. now rewrite app_assoc. }
      destruct V as [V P']. destruct (IH st' CM (asked_same _ _ _ _ _ SM A) P' S2) as (vss & F & E). exists (vs :: vss). split.
      * cbn [map snd]. constructor; [exact G|]. rewrite (rids_same request _ _ SM) in F. eapply Forall2_impl; [|exact F]. cbv beta. intros c0 v0. apply gathered_same.
        destruct SM as (M1 & M2 & M3 & M4 & M5 & M6 & M7). repeat split; congruence.
      * rewrite E, V. cbn [concat]. now rewrite app_assoc.
    + apply scalar_eqb_neq in EI. set (st' := fst (update_report call quotient i st)) in *.
      assert (GI : get scalar_eqb id (cs_incomplete st') = get scalar_eqb id (cs_incomplete st)) by (apply update_other; [congruence|apply C]).
      destruct (IH st' CM (asked_same _ _ _ _ _ SM A)) as (vss & F & E); [now rewrite GI|exact S2|]. exists vss. split.
      * rewrite (rids_same request _ _ SM) in F. eapply Forall2_impl; [|exact F]. cbv beta. intros c0 v0. apply gathered_same.
        destruct SM as (M1 & M2 & M3 & M4 & M5 & M6 & M7). repeat split; congruence.
      * rewrite E. f_equal. now apply all_values_other.
Qed.
Print Assumptions C82_kept_partial.

(** ** When a sampling succeeds: exactly when the callbacks answer, unless it
    would be the first and the last one of a report. *)
Theorem C82_succeeds : forall call quotient id request report b g st, asked_for id request report st -> rr_back request = Some b -> rr_gran request = Some g ->
  ((exists st', update_report call quotient id st = (st', Ok tt)) <->
   exists vs, gathered call st (cr_mode report) (rr_specifier request) (rids_of st request) vs /\
     ~ (collects request report b g /\ get scalar_eqb id (cs_incomplete st) = None /\ Z.of_nat (length vs) = Z.of_nat (length (rids_of st request)) * quotient b g)).
Proof.
  intros call quotient id request report b g st A B G. destruct (collects_dec request report) as [(b' & g' & CL)|NC].
  - assert (b' = b /\ g' = g) as [-> ->] by (destruct CL as (_ & B' & G' & _); split; congruence). rewrite (update_collecting _ _ _ _ _ _ _ _ A CL). split.
    + intros (st' & U). destruct (collect call st request report (filed id report st)) as [l [u|e]] eqn:CC; [|discriminate].
      destruct (collect_ok _ _ _ _ _ _ _ CC) as (vs & new & GA & L & S & _). exists vs. split; [exact GA|]. intros (_ & N & LN).
      cbv zeta in U. rewrite N in U. rewrite L, filed_held in U. unfold held in U. rewrite N in U. cbn [app] in U. rewrite <- S, seen_len in LN. apply Z.eqb_eq in LN. rewrite LN in U. discriminate.
    + intros (vs & GA & N). destruct (gathered_collect call st request report (filed id report st) vs b g B G GA) as (new & CC & S). rewrite CC. cbv zeta.
      destruct (Z.of_nat (length (og_intervals (filed id report st) ++ new)%list) =? _) eqn:E; [|eauto].
      destruct (get scalar_eqb id (cs_incomplete st)) eqn:GG; [eauto|]. elim N. split; [exact CL|]. split; [reflexivity|].
      rewrite filed_held in E. unfold held in E. rewrite GG in E. cbn [app] in E. apply Z.eqb_eq in E. now rewrite <- S, seen_len.
  - assert (W : cr_mode report = "incremental" -> rr_back request <> None -> rr_gran request <> None) by congruence.
    rewrite (update_direct _ _ _ _ _ _ A NC W). split.
    + intros (st' & U). destruct (collect call st request report (filed id report st)) as [l [u|e]] eqn:CC; [|discriminate].
      destruct (collect_ok _ _ _ _ _ _ _ CC) as (vs & new & GA & _). exists vs. split; [exact GA|]. intros (CL & _). elim NC. eauto.
    + intros (vs & GA & _). destruct (gathered_collect call st request report (filed id report st) vs b g B G GA) as (new & CC & S). rewrite CC. eauto.
Qed.
Print Assumptions C82_succeeds.

(** That one loses its values: a KeyError, and nothing has changed. *)
Theorem C82_first_and_last : forall call quotient id request report b g st vs, asked_for id request report st -> collects request report b g ->
  get scalar_eqb id (cs_incomplete st) = None -> gathered call st (cr_mode report) (rr_specifier request) (rids_of st request) vs ->
  Z.of_nat (length vs) = Z.of_nat (length (rids_of st request)) * quotient b g -> update_report call quotient id st = (st, Raise KeyError).
Proof.
  intros call quotient id request report b g st vs A CL N GA L. rewrite (update_collecting _ _ _ _ _ _ _ _ A CL). destruct CL as (_ & B & G & _).
  destruct (gathered_collect call st request report (filed id report st) vs b g B G GA) as (new & CC & S). rewrite CC. cbv zeta. rewrite filed_held. unfold held. rewrite N. cbn [app].
  rewrite <- S, seen_len in L. apply Z.eqb_eq in L. now rewrite L.
Qed.
Print Assumptions C82_first_and_last.

(** A report of the whole history is sent at each sampling, also where the VTN
    did not say how often it wants it (then it is as often as it is sampled);
    without a granularity there is a TypeError. *)
Theorem C82_full_mode : forall call quotient id request report st vs, asked_for id request report st -> cr_mode report = "full" ->
  gathered call st "full" (rr_specifier request) (rids_of st request) vs ->
  (rr_gran request <> None -> exists st' og, update_report call quotient id st = (st', Ok tt) /\ cs_pending st' = (cs_pending st ++ [og])%list /\ seen (og_intervals og) = (seen (held id st) ++ vs)%list) /\
  (rr_gran request = None -> snd (update_report call quotient id st) = Raise TypeError).
Proof.
  intros call quotient id request report st vs A M GA. unfold update_report. destruct (asked_find _ _ _ _ A) as [-> ->]. cbv zeta. fold (filed id report st). unfold collect, back_of. rewrite M. cbn [String.eqb Ascii.eqb Bool.eqb].
  split; intros G.
  - destruct (rr_gran request) as [g|]; [|congruence]. destruct (gathered_full _ _ _ _ _ GA (og_intervals (filed id report st))) as (new & E & S).
    assert (X : (match rr_back request with Some b => Some b | None => Some g end) <> None) by (destruct (rr_back request); discriminate).
    destruct (match rr_back request with Some b => Some b | None => Some g end); [|congruence]. rewrite E. eexists. eexists. split; [reflexivity|]. split; [reflexivity|].
    cbn [og_intervals]. now rewrite seen_app, filed_held, S.
  - rewrite G. destruct (rr_back request); reflexivity.
Qed.
Print Assumptions C82_full_mode.

(** ** A report that has got too long is never sent, whatever the callbacks
    return or raise from then on. *)
Theorem C82_too_long : forall quotient id request report b g st, coherent st -> asked_for id request report st -> collects request report b g -> 0 <= quotient b g ->
  Z.of_nat (length (held id st)) > Z.of_nat (length (rids_of st request)) * quotient b g ->
  forall evs, queued_for id (run quotient evs st) = queued_for id st.
Proof.
  intros quotient id request report b g st C A CL Q0 L evs.
  assert (INV : queued_for id (run quotient evs st) = queued_for id st /\ Z.of_nat (length (held id (run quotient evs st))) > Z.of_nat (length (rids_of st request)) * quotient b g); [|apply INV].
  induction evs as [|[i call] evs [IH1 IH2]] using rev_ind; [auto|]. rewrite run_app.
  pose proof (run_same quotient evs st) as SM. pose proof (run_coherent quotient evs st C) as CM. set (st1 := run quotient evs st) in *.
  destruct (scalar_eqb i id) eqn:EI.
  - apply scalar_eqb_eq in EI. subst i. rewrite (update_collecting _ _ _ _ _ _ _ _ (asked_same _ _ _ _ _ SM A) CL).
    destruct (collect call st1 request report (filed id report st1)) as [l x] eqn:CC. pose proof (collect_grows _ _ _ _ _ _ _ CC) as GR. rewrite filed_held in GR.
    assert (GN : exists og, get scalar_eqb id (cs_incomplete st1) = Some og /\ og_intervals og = held id st1 /\ filed id report st1 = og).
    { unfold held, filed in *. destruct (get scalar_eqb id (cs_incomplete st1)) as [og|]; [eauto|]. cbn [length] in IH2. lia. }
    destruct GN as (og & GG & HO & FO). destruct x as [u|e].
    + cbv zeta. rewrite (rids_same request _ _ SM). destruct (Z.of_nat (length l) =? _) eqn:E; [apply Z.eqb_eq in E; lia|]. rewrite GG. cbn [fst]. split; [exact IH1|].
      unfold held. cbn [set_outgoing cs_incomplete]. rewrite (get_set_same scalar_eqb scalar_eqb_eq). cbn [og_intervals]. lia.
    + cbn [fst]. rewrite FO, GG. destruct (og_intervals og) as [|o os] eqn:OI; [rewrite <- HO in IH2; cbn [length] in IH2; lia|]. split; [exact IH1|].
      unfold held. cbn [set_outgoing cs_incomplete]. rewrite (get_set_same scalar_eqb scalar_eqb_eq). cbn [og_intervals]. lia.
  - apply scalar_eqb_neq in EI. destruct (update_coherent call quotient i st1 CM) as (_ & sent & S1 & S2). split.
    + rewrite (queued_app id _ _ _ S1), IH1. rewrite filter_none; [now rewrite app_nil_r|]. intros og I. apply S2 in I. apply scalar_eqb_neq. congruence.
    + unfold held. rewrite update_other by (try apply CM; congruence). exact IH2.
Qed.
Print Assumptions C82_too_long.

(** ** The claim, where it holds. *)
(** In full mode, and when every sampling is a report: all series. *)
Theorem C82_at_once_partial : C82_statement (fun mode b g _ _ => mode = "full" \/ b = g).
Proof.
  intros quotient id request report b g st evs vss C A M R B G GP Q K AP N F.
  assert (NC : ~ exists b g, collects request report b g).
  { intros (b' & g' & M' & B' & G' & L). destruct AP as [AP|AP]; [congruence|]. assert (b' = b) by congruence. assert (g' = g) by congruence. lia. }
  assert (RP : 0 < Z.of_nat (length (rids_of st request))) by (destruct (rids_of st request); [congruence|cbn [length]; lia]).
  assert (INV : all_values id (run quotient evs st) = (all_values id st ++ concat vss)%list /\ get scalar_eqb id (cs_incomplete (run quotient evs st)) = None).
  2:{ destruct INV as [I1 I2]. split; [exact I1|]. unfold held. rewrite I2. cbn [length]. nia. }
  revert vss F AP. induction evs as [|[i call] evs IH] using rev_ind; intros vss F AP.
  - inversion F; subst. cbn [concat]. rewrite app_nil_r. auto.
  - rewrite of_request_app in F. cbn [fst snd] in F. rewrite run_app.
    pose proof (run_same quotient evs st) as SM. pose proof (run_coherent quotient evs st C) as CM. set (st1 := run quotient evs st) in *.
    destruct (scalar_eqb i id) eqn:EI.
    + apply scalar_eqb_eq in EI. subst i. apply Forall2_snoc_inv in F as (vs' & vs & -> & F & GA). destruct (IH _ F AP) as [I1 I2].
      pose proof (asked_same _ _ _ _ _ SM A) as A1. apply (gathered_same call st st1) in GA; [|exact SM]. rewrite <- (rids_same request _ _ SM) in GA.
      destruct (proj2 (C82_succeeds call quotient id request report b g st1 A1 B G)) as (st' & U); [exists vs; split; [exact GA|]; intros (CL & _); elim NC; eauto|].
      rewrite U. cbn [fst]. destruct (update_ok _ _ _ _ _ CM U) as (request' & report' & vs1 & og & A' & G' & I & SE & _ & _ & KK).
      assert (request' = request) by (destruct A1, A'; eapply first_fun; eassumption). subst request'.
      assert (report' = report) by (destruct A1, A'; eapply first_fun; eassumption). subst report'.
      rewrite (gathered_fun _ _ _ _ _ _ G' _ GA) in SE. clear G' vs1.
      destruct KK as [(_ & P & GI)|[((b' & g' & CL & _) & _)|((b' & g' & CL & _) & _)]]; [|elim NC; eauto|elim NC; eauto].
      rewrite I2 in GI. cbn [option_map] in GI. split; [|exact GI]. unfold all_values, held in *. rewrite GI, I2 in *. cbn [seen map] in *. rewrite app_nil_r in *.
      rewrite (queued_app id _ _ _ P), flat_map_app. cbn [filter]. rewrite I, scalar_eqb_refl. cbn [flat_map]. rewrite app_nil_r, SE. cbn [app].
      rewrite I1, concat_app. cbn [concat]. rewrite !app_nil_r. now rewrite app_assoc.
    + rewrite app_nil_r in F. apply scalar_eqb_neq in EI. destruct (IH _ F AP) as [I1 I2]. split.
      * rewrite all_values_other by assumption. exact I1.
      * rewrite update_other by (try apply CM; congruence). exact I2.
Qed.
Print Assumptions C82_at_once_partial.

(** When every sampling brings the same number of values and at least two
    samplings make up a report. *)
Theorem C82_regular_partial : C82_statement (fun mode b g full vss => mode = "incremental" /\ g < b /\
  exists m j : nat, (0 < m)%nat /\ (2 <= j)%nat /\ full = Z.of_nat (m * j) /\ Forall (fun vs => length vs = m) vss).
Proof.
  intros quotient id request report b g st evs vss C A M R B G GP Q K (MI & GB & m & j & MP & JP & FU & FL) N F.
  assert (CL : collects request report b g) by (split; [exact MI|]; auto).
  assert (INV : all_values id (run quotient evs st) = (all_values id st ++ concat vss)%list /\ exists r, (r < j)%nat /\ length (held id (run quotient evs st)) = (m * r)%nat /\
    (get scalar_eqb id (cs_incomplete (run quotient evs st)) = None <-> r = 0%nat)).
  2:{ destruct INV as (I1 & r & RJ & I2 & _). split; [exact I1|]. rewrite I2, FU. nia. }
  revert vss F FL. induction evs as [|[i call] evs IH] using rev_ind; intros vss F FL.
  - inversion F; subst. cbn [concat]. rewrite app_nil_r. split; [reflexivity|]. exists 0%nat. split; [lia|]. unfold held. cbn [run fold_left]. rewrite N. split; [cbn; lia|tauto].
  - rewrite of_request_app in F. cbn [fst snd] in F. rewrite run_app.
    pose proof (run_same quotient evs st) as SM. pose proof (run_coherent quotient evs st C) as CM. set (st1 := run quotient evs st) in *.
    destruct (scalar_eqb i id) eqn:EI.
    + apply scalar_eqb_eq in EI. subst i. apply Forall2_snoc_inv in F as (vs' & vs & -> & F & GA). apply Forall_app in FL as [FL FV]. inversion FV as [|? ? LV _]; subst.
      destruct (IH _ F FL) as (I1 & r & RJ & I2 & I3).
      pose proof (asked_same _ _ _ _ _ SM A) as A1. apply (gathered_same call st st1) in GA; [|exact SM]. rewrite <- (rids_same request _ _ SM) in GA.
      pose proof (rids_same request _ _ SM) as RS.
      destruct (proj2 (C82_succeeds call quotient id request report b g st1 A1 B G)) as (st' & U).
      { exists vs. split; [exact GA|]. intros (_ & _ & L). rewrite RS, Q, FU in L. nia. }
      rewrite U. cbn [fst]. destruct (update_ok _ _ _ _ _ CM U) as (request' & report' & vs1 & og & A' & G' & I & SE & _ & _ & KK).
      assert (request' = request) by (destruct A1, A'; eapply first_fun; eassumption). subst request'.
      assert (report' = report) by (destruct A1, A'; eapply first_fun; eassumption). subst report'.
      rewrite (gathered_fun _ _ _ _ _ _ G' _ GA) in SE. clear G' vs1.
      assert (LO : length (og_intervals og) = (length vs * S r)%nat) by (rewrite <- seen_len, SE, app_length, seen_len, I2; lia).
      assert (CV : forall b' g', collects request report b' g' -> quotient b' g' = b / g) by (intros b' g' (_ & B' & G' & _); assert (b' = b) by congruence; assert (g' = g) by congruence; subst; exact Q).
      rewrite concat_app. cbn [concat]. rewrite app_nil_r. rewrite app_assoc, <- I1.
      destruct KK as [(NC & _)|[((b' & g' & CL' & L) & GN & P & GI)|((b' & g' & CL' & L) & P & GI)]]; [elim NC; eauto| |].
      * split; [|exists 0%nat; split; [lia|]; unfold held; rewrite GI; split; [cbn; lia|tauto]]. unfold all_values, held. rewrite GI. cbn [seen map]. rewrite app_nil_r.
        rewrite (queued_app id _ _ _ P), flat_map_app. cbn [filter]. rewrite I, scalar_eqb_refl. cbn [flat_map]. rewrite app_nil_r, SE. unfold held. now rewrite app_assoc.
      * split.
        { unfold all_values, held, queued_for. rewrite GI, P, SE. unfold held. now rewrite app_assoc. }
        exists (S r). rewrite (CV _ _ CL'), RS, LO, FU in L. split; [assert (S r <> j) by (intros EJ; apply L; now rewrite EJ); lia|]. unfold held. rewrite GI. split; [exact LO|]. split; discriminate.
    + rewrite app_nil_r in F. apply scalar_eqb_neq in EI. destruct (IH _ F FL) as (I1 & r & RJ & I2 & I3). split.
      * rewrite all_values_other by assumption. exact I1.
      * exists r. unfold held. rewrite update_other by (try apply CM; congruence). auto.
Qed.
Print Assumptions C82_regular_partial.

(** ** Where it does not *)
Definition two (t : Z) : nat -> scalar -> result sample := fun _ _ => Ok (Series [(t, SInt 1); (t + 1, SInt 2)]).
Definition pair_at (t : Z) : list value := [(SStr "a", t, SInt 1); (SStr "a", t + 1, SInt 2)].
Lemma two_gathered t st mode specifier c : get ckey_eqb (specifier, SStr "a") (cs_callbacks st) = Some c -> gathered (two t) st mode specifier [SStr "a"] (pair_at t).
Proof. intros G. apply (g_cons _ _ _ _ (SStr "a") [] [(t, SInt 1); (t + 1, SInt 2)] []); [now apply (a_series _ _ _ _ _ c)|constructor]. Qed.

(** Two values are a complete report: the first sampling fails. *)
Theorem C82_refuted : ~ C82_full.
Proof.
  intros H.
  destruct (H Z.div (SStr "r1") (req1 120 60) rep1 (120 * second_us) (60 * second_us) (sampled1 120 60 ["a"]) [(SStr "r1", two 100)] [pair_at 100]) as [E _].
  - split; vm_compute; [constructor|intros ? ? []].
  - split; vm_compute; apply f_here; reflexivity.
  - now left.
  - vm_compute. discriminate.
  - reflexivity.
  - reflexivity.
  - reflexivity.
  - reflexivity.
  - vm_compute. discriminate.
  - exact I.
  - vm_compute. reflexivity.
  - constructor; [|constructor]. apply (two_gathered 100 _ _ _ 0%nat). vm_compute. reflexivity.
  - vm_compute in E. discriminate.
Qed.
Print Assumptions C82_refuted.

(** Three values are a complete report: after two samplings there are four, and
    no further sampling, whatever it brings, gets a report sent. *)
Theorem C82_too_long_refuted : ~ (forall quotient id request report b g st call, coherent st -> asked_for id request report st -> collects request report b g -> quotient b g = b / g ->
  get scalar_eqb id (cs_incomplete st) = None -> (exists vs, vs <> [] /\ gathered call st (cr_mode report) (rr_specifier request) (rids_of st request) vs) ->
  exists n, queued_for id (run quotient (repeat (id, call) n) st) <> queued_for id st).
Proof.
  intros H.
  destruct (H Z.div (SStr "r1") (req1 180 60) rep1 (180 * second_us) (60 * second_us) (sampled1 180 60 ["a"]) (two 100)) as [n E].
  - split; vm_compute; [constructor|intros ? ? []].
  - split; vm_compute; apply f_here; reflexivity.
  - split; [reflexivity|]. split; [reflexivity|]. split; [reflexivity|]. vm_compute. auto.
  - reflexivity.
  - vm_compute. reflexivity.
  - exists (pair_at 100). split; [discriminate|]. apply (two_gathered 100 _ _ _ 0%nat). vm_compute. reflexivity.
  - apply E. destruct n as [|[|n]]; [reflexivity|vm_compute; reflexivity|].
    change (repeat (SStr "r1", two 100) (S (S n))) with ([(SStr "r1", two 100); (SStr "r1", two 100)] ++ repeat (SStr "r1", two 100) n)%list.
    unfold run. rewrite fold_left_app. change (fold_left _ (repeat (SStr "r1", two 100) n) ?s) with (run Z.div (repeat (SStr "r1", two 100) n) s).
    rewrite (C82_too_long Z.div (SStr "r1") (req1 180 60) rep1 (180 * second_us) (60 * second_us)).
    + vm_compute. reflexivity.
    + apply (run_coherent Z.div [(SStr "r1", two 100); (SStr "r1", two 100)]). split; vm_compute; [constructor|intros ? ? []].
    + split; vm_compute; apply f_here; reflexivity.
    + split; [reflexivity|]. split; [reflexivity|]. split; [reflexivity|]. vm_compute. auto.
    + vm_compute. discriminate.
    + vm_compute. reflexivity.
Qed.
Print Assumptions C82_too_long_refuted.

(** Two samplings with two values each, four values in a report; another
    request in between. *)
Example C82_example :
  let st := sampled1 240 60 ["a"] in let evs := [(SStr "r1", two 100); (SStr "other", seven); (SStr "r1", two 200); (SStr "r1", two 300)] in
  coherent st /\ asked_for (SStr "r1") (req1 240 60) rep1 st /\ succeeds Z.div (SStr "r1") evs st /\
  map (fun og => seen (og_intervals og)) (queued_for (SStr "r1") (run Z.div evs st)) = [(pair_at 100 ++ pair_at 200)%list] /\ seen (held (SStr "r1") (run Z.div evs st)) = pair_at 300.
Proof.
  cbv zeta. split; [split; vm_compute; [constructor|intros ? ? []]|]. split; [split; vm_compute; apply f_here; reflexivity|].
  split; [vm_compute; repeat split; discriminate|]. split; vm_compute; reflexivity.
Qed.

(** A report of the history without a report back duration. *)
Definition history1 : crep := mk_crep "METADATA_HISTORY_USAGE" (SStr "s1") "full" [mk_cdesc (SStr "a") None (10 * second_us) hour_us SNone "Direct Read" "usage"].
Definition asked1 : rr := mk_rr (SStr "r1") (SStr "s1") None 0 (Some (60 * second_us)) None.
Definition full1 : cstate := mk_cstate [] [history1] [((SStr "s1", SStr "a"), 0%nat)] [asked1] [mk_frame [SStr "a"] (SStr "r1")] [] 0 [] [].
Example C82_example_full : asked_for (SStr "r1") asked1 history1 full1 /\ gathered (two 100) full1 "full" (rr_specifier asked1) (rids_of full1 asked1) (pair_at 100) /\
  map (fun og => (og_name og, seen (og_intervals og))) (cs_pending (fst (update_report (two 100) Z.div (SStr "r1") full1))) = [("HISTORY_USAGE", pair_at 100)].
Proof. split; [split; vm_compute; apply f_here; reflexivity|]. split; [apply (two_gathered 100 _ _ _ 0%nat); vm_compute; reflexivity | vm_compute; reflexivity]. Qed.

(** ** C83: a cancellation (client.py:932-973) samples once more, to send what
    there is, and then forgets the request.  [evs]: the samplings during the
    pause of line 944. *)
Definition C83_statement (applies : rr -> crep -> Prop) : Prop := forall call quotient id request report st st1 r evs follow st2 m, coherent st ->
  asked_for id request report st -> applies request report -> get scalar_eqb id (cs_incomplete st) = None ->
  cancel_begin call quotient id st = (st1, Ok (Some r)) -> cancel_end call quotient r follow (run quotient evs st1) = (st2, Ok m) ->
  held id st2 = [].
Definition C83_full : Prop := C83_statement (fun _ _ => True).

Lemma direct_none call quotient id request report st : asked_for id request report st -> (~ exists b g, collects request report b g) ->
  get scalar_eqb id (cs_incomplete st) = None -> get scalar_eqb id (cs_incomplete (fst (update_report call quotient id st))) = None.
Proof.
  intros A NC N. unfold update_report. destruct (asked_find _ _ _ _ A) as [-> ->]. cbv zeta. rewrite N.
  destruct (collect _ _ _ _ _) as [l [u|e]]; [|exact N]. destruct (cr_mode report =? "incremental")%string eqn:M; [|exact N]. apply String.eqb_eq in M.
  unfold back_of. rewrite M. cbn [String.eqb Ascii.eqb Bool.eqb]. cbv iota. destruct (rr_back request) as [b|] eqn:B; [|exact N]. destruct (rr_gran request) as [g|] eqn:G; [|exact N].
  destruct ((0 <? g) && (g <? b)) eqn:T; [|exact N]. elim NC. exists b, g. apply andb_true_iff in T as [T1 T2]. apply Z.ltb_lt in T1, T2. split; [exact M|]. auto.
Qed.
Lemma direct_none_run quotient id request report st evs : coherent st -> asked_for id request report st -> (~ exists b g, collects request report b g) ->
  get scalar_eqb id (cs_incomplete st) = None -> get scalar_eqb id (cs_incomplete (run quotient evs st)) = None.
Proof.
  intros C A NC N. induction evs as [|[i call] evs IH] using rev_ind; [exact N|]. rewrite run_app.
  pose proof (run_same quotient evs st) as SM. pose proof (run_coherent quotient evs st C) as CM.
  destruct (scalar_eq_dec i id) as [->|NE].
  - apply (direct_none _ _ _ request report); [now apply (asked_same _ _ _ st)|exact NC|exact IH].
  - rewrite update_other by (try apply CM; congruence). exact IH.
Qed.

Theorem C83_at_once_partial : C83_statement (fun request report => ~ exists b g, collects request report b g).
Proof.
  intros call quotient id request report st st1 r evs follow st2 m C A NC N CB CE.
  assert (S1 : same_but_outgoing st st1 /\ coherent st1 /\ get scalar_eqb id (cs_incomplete st1) = None /\ rr_id r = id).
  { unfold cancel_begin in CB. destruct (asked_find _ _ _ _ A) as [F _]. rewrite F in CB. assert (RI : rr_id request = id) by (destruct A as [A _]; now apply first_In in A).
    destruct (rids_of st request).
    - injection CB as <- <-. split; [apply same_refl|]. auto.
    - pose proof (update_same call quotient id st) as U1. pose proof (proj1 (update_coherent call quotient id st C)) as U2. pose proof (direct_none call quotient id request report st A NC N) as U3.
      destruct (update_report call quotient id st) as [s0 [u|]]; [|discriminate]. cbn [bind fst] in *. injection CB as <- <-. auto. }
  destruct S1 as (S1 & C1 & N1 & RI). pose proof (run_same quotient evs st1) as SM.
  pose proof (asked_same _ _ _ _ _ SM (asked_same _ _ _ _ _ S1 A)) as A2. pose proof (direct_none_run quotient id request report st1 evs C1 (asked_same _ _ _ _ _ S1 A) NC N1) as N2.
  set (s := run quotient evs st1) in *. unfold cancel_end in CE. cbv zeta in CE.
  destruct (match rr_job r with None => Ok s | Some n => _ end) as [s'|] eqn:RM; [|discriminate].
  assert (S' : cs_requests s' = cs_requests s /\ cs_reports s' = cs_reports s /\ cs_incomplete s' = cs_incomplete s).
  { destruct (rr_job r); [destruct (existsb _ (cs_jobs s)); [|discriminate]|]; injection RM as <-; auto. }
  destruct S' as (E1 & E2 & E3). destruct follow as [f|]; [|discriminate].
  assert (A3 : asked_for id request report s') by (unfold asked_for; rewrite E1, E2; exact A2).
  assert (N3 : get scalar_eqb id (cs_incomplete (fst (if f then update_report call quotient (rr_id r) s' else (s', Ok tt)))) = None).
  { destruct f; [rewrite RI; apply (direct_none _ _ _ request report); [exact A3|exact NC|now rewrite E3]|cbn [fst]; now rewrite E3]. }
  destruct (if f then update_report call quotient (rr_id r) s' else (s', Ok tt)) as [s3 [u|]]; [|discriminate].
  destruct (existsb _ _); [|discriminate]. injection CE as <- <-. unfold held. cbn [set_requests cs_incomplete fst] in *. now rewrite N3.
Qed.
Print Assumptions C83_at_once_partial.

(** What is in progress when the request is forgotten is not sent from then on,
    whatever happens, ... *)
Theorem C83_never_sent : forall quotient id st, coherent st -> (forall r, In r (cs_requests st) -> rr_id r <> id) ->
  forall evs, queued_for id (run quotient evs st) = queued_for id st /\ held id (run quotient evs st) = held id st.
Proof.
  intros quotient id st C NR evs. induction evs as [|[i call] evs [IH1 IH2]] using rev_ind; [auto|]. rewrite run_app.
  pose proof (run_same quotient evs st) as SM. pose proof (run_coherent quotient evs st C) as CM. set (st1 := run quotient evs st) in *.
  destruct (scalar_eq_dec i id) as [->|NE].
  - assert (F : find_request id (cs_requests st1) = None).
    { apply (find_none_iff _ (fun r => rr_id r = id) (scalar_eqb_P rr_id id)). destruct SM as (_ & _ & _ & M4 & _). now rewrite M4. }
    unfold update_report. rewrite F. auto.
  - destruct (update_coherent call quotient i st1 CM) as (_ & sent & S1 & S2). split.
    + rewrite (queued_app id _ _ _ S1), IH1. rewrite filter_none; [now rewrite app_nil_r|]. intros og I. apply S2 in I. apply scalar_eqb_neq. congruence.
    + unfold held in *. rewrite update_other by (try apply CM; congruence). exact IH2.
Qed.
Print Assumptions C83_never_sent.

(** ... and it is there when the last sampling did not complete a report. *)
Theorem C83_refuted : ~ C83_full.
Proof.
  intros H. set (st := sampled1 240 60 ["a"]). set (st1 := fst (cancel_begin seven Z.div (SStr "r1") st)).
  assert (E : held (SStr "r1") (fst (cancel_end seven Z.div (req1 240 60) (Some false) st1)) = []).
  { apply (H seven Z.div (SStr "r1") (req1 240 60) rep1 st st1 (req1 240 60) [] (Some false) (fst (cancel_end seven Z.div (req1 240 60) (Some false) st1)) (SStr "r1", false)).
    - split; vm_compute; [constructor|intros ? ? []].
    - split; vm_compute; apply f_here; reflexivity.
    - exact I.
    - vm_compute. reflexivity.
    - vm_compute. reflexivity.
    - vm_compute. reflexivity. }
  vm_compute in E. discriminate.
Qed.
Print Assumptions C83_refuted.

(** ** The values reported for a request were sampled for that request. *)
Definition C83_fresh_statement (applies : scalar -> cstate -> Prop) : Prop := forall call quotient q st st' x request report b g evs vss,
  history any_ids st -> coherent st -> (forall r, In r (cs_requests st) -> rr_id r <> cq_id q) -> queued_for (cq_id q) st = [] -> applies (cq_id q) st ->
  create_report call quotient [q] st = (st', Ok x) -> asked_for (cq_id q) request report st' -> cs_pending st' = cs_pending st -> cs_incomplete st' = cs_incomplete st ->
  rr_back request = Some b -> rr_gran request = Some g ->
  Forall2 (fun call vs => gathered call st' (cr_mode report) (rr_specifier request) (rids_of st' request) vs) (of_request (cq_id q) evs) vss ->
  incl (all_values (cq_id q) (run quotient evs st')) (concat vss).
Definition C83_fresh_full : Prop := C83_fresh_statement (fun _ _ => True).

Lemma sampled_incl call quotient id request report b g st vs : coherent st -> asked_for id request report st -> rr_back request = Some b -> rr_gran request = Some g ->
  gathered call st (cr_mode report) (rr_specifier request) (rids_of st request) vs ->
  incl (all_values id (fst (update_report call quotient id st))) (all_values id st ++ vs)%list.
Proof.
  intros C A B G GA. destruct (update_report call quotient id st) as [st' x] eqn:U. cbn [fst]. destruct x as [[]|e].
  - destruct (update_ok _ _ _ _ _ C U) as (request' & report' & vs1 & og & A' & G' & I & SE & _ & _ & K).
    assert (request' = request) by (destruct A, A'; eapply first_fun; eassumption). subst request'.
    assert (report' = report) by (destruct A, A'; eapply first_fun; eassumption). subst report'.
    rewrite (gathered_fun _ _ _ _ _ _ G' _ GA) in SE. clear G' vs1. intros v. unfold all_values. rewrite !in_app_iff.
    assert (SV : In v (seen (og_intervals og)) -> In v (seen (held id st)) \/ In v vs) by (rewrite SE, in_app_iff; tauto).
    assert (QV : cs_pending st' = (cs_pending st ++ [og])%list -> In v (flat_map (fun o => seen (og_intervals o)) (queued_for id st')) -> In v (flat_map (fun o => seen (og_intervals o)) (queued_for id st)) \/ In v (seen (og_intervals og))).
    { intros Q. rewrite (queued_app id _ _ _ Q). cbn [filter]. rewrite I, scalar_eqb_refl, flat_map_app, in_app_iff. cbn [flat_map]. rewrite app_nil_r. tauto. }
    destruct K as [(_ & Q & GI)|[(_ & _ & Q & GI)|(_ & Q & GI)]].
    + assert (HV : In v (seen (held id st')) -> In v (seen (og_intervals og))) by (unfold held; rewrite GI; destruct (get scalar_eqb id (cs_incomplete st)); cbn [option_map]; [tauto|intros []]). tauto.
    + assert (HV : In v (seen (held id st')) -> False) by (unfold held; rewrite GI; intros []). tauto.
    + assert (HV : In v (seen (held id st')) -> In v (seen (og_intervals og))) by (unfold held; rewrite GI; tauto). unfold queued_for in *. rewrite Q. tauto.
  - assert (E : st' = st).
    { destruct (collects_dec request report) as [(b' & g' & CL)|NC].
      - rewrite (update_collecting _ _ _ _ _ _ _ _ A CL) in U. destruct (gathered_collect call st request report (filed id report st) vs b g B G GA) as (new & CC & S). rewrite CC in U. cbv zeta in U.
        destruct (_ =? _); [|discriminate]. destruct (get scalar_eqb id (cs_incomplete st)); [discriminate|]. now injection U.
      - assert (W : cr_mode report = "incremental" -> rr_back request <> None -> rr_gran request <> None) by congruence.
        rewrite (update_direct _ _ _ _ _ _ A NC W) in U. destruct (gathered_collect call st request report (filed id report st) vs b g B G GA) as (new & CC & S). rewrite CC in U. discriminate. }
    subst st'. now apply incl_appl.
Qed.

Theorem C83_fresh_partial : C83_fresh_statement (fun id st => held id st = []).
Proof.
  intros call quotient q st st' x request report b g evs vss _ C _ QN HN _ A PD IC B G F. set (id := cq_id q) in *.
  assert (C' : coherent st') by (unfold coherent; now rewrite IC).
  assert (V0 : all_values id st' = []) by (unfold all_values, queued_for, held in *; now rewrite PD, IC, QN, HN).
  revert vss F. induction evs as [|[i c] evs IH] using rev_ind; intros vss F.
  - inversion F; subst. cbn [run fold_left]. rewrite V0. apply incl_nil_l.
  - rewrite of_request_app in F. cbn [fst snd] in F. rewrite run_app. pose proof (run_same quotient evs st') as SM. pose proof (run_coherent quotient evs st' C') as CM.
    destruct (scalar_eqb i id) eqn:EI.
    + apply scalar_eqb_eq in EI. subst i. apply Forall2_snoc_inv in F as (vs' & vs & -> & F & GA). apply (gathered_same c st' (run quotient evs st')) in GA; [|exact SM]. rewrite <- (rids_same request _ _ SM) in GA.
      eapply incl_tran; [apply (sampled_incl c quotient id request report b g _ vs CM (asked_same _ _ _ _ _ SM A) B G GA)|].
      rewrite concat_app. cbn [concat]. rewrite app_nil_r. apply incl_app; [apply incl_appl; now apply IH|apply incl_appr, incl_refl].
    + rewrite app_nil_r in F. apply scalar_eqb_neq in EI. rewrite all_values_other by assumption. now apply IH.
Qed.
Print Assumptions C83_fresh_partial.

(** When the VTN uses the id of a cancelled request again, the old values are
    taken for values of the new request. *)
Definition one_b : nat -> scalar -> result sample := fun _ _ => Ok (Number 300 (SInt 9)).
Theorem C83_fresh_refuted : ~ C83_fresh_full.
Proof.
  intros H. set (st0 := sampled1 240 60 ["a"]). set (st1 := fst (cancel_begin seven Z.div (SStr "r1") st0)).
  set (old := fst (cancel_end seven Z.div (req1 240 60) (Some false) st1)).
  set (new := fst (create_report seven Z.div [want "r1" 240 60 ["b"]] old)).
  assert (E : incl (all_values (SStr "r1") (run Z.div [(SStr "r1", one_b)] new)) (concat [[(SStr "b", 300, SInt 9)]])).
  { apply (H seven Z.div (want "r1" 240 60 ["b"]) old new (200, [SStr "r1"]) (mk_rr (SStr "r1") (SStr "s1") (Some (240 * second_us)) 1 (Some (60 * second_us)) (Some 1%nat)) rep1 (240 * second_us) (60 * second_us)).
    - unfold old. apply h_cancel_end. unfold st1. apply h_cancel_begin. unfold st0. apply h_create; [apply h_start; reflexivity|exact I].
    - split; vm_compute; [constructor; [intros []|constructor]|]. intros ? ? [X|[]]. injection X as <- <-. reflexivity.
    - vm_compute. intros ? [].
    - vm_compute. reflexivity.
    - exact I.
    - vm_compute. reflexivity.
    - split; vm_compute; apply f_here; reflexivity.
    - vm_compute. reflexivity.
    - vm_compute. reflexivity.
    - reflexivity.
    - reflexivity.
    - constructor; [|constructor]. apply (g_cons _ _ _ _ (SStr "b") [] [(300, SInt 9)] []); [|constructor]. apply (a_number _ _ _ _ _ 1%nat); [discriminate|vm_compute; reflexivity|reflexivity]. }
  vm_compute in E. specialize (E _ (or_introl eq_refl)). destruct E as [E|[]]. discriminate.
Qed.
Print Assumptions C83_fresh_refuted.

(** A report that is sent at every sampling is cancelled. *)
Example C83_example :
  let st := sampled1 60 60 ["a"] in let st1 := fst (cancel_begin seven Z.div (SStr "r1") st) in
  coherent st /\ asked_for (SStr "r1") (req1 60 60) rep1 st /\ (~ exists b g, collects (req1 60 60) rep1 b g) /\
  cancel_begin seven Z.div (SStr "r1") st = (st1, Ok (Some (req1 60 60))) /\ snd (cancel_end seven Z.div (req1 60 60) (Some false) st1) = Ok (SStr "r1", false) /\
  all_values (SStr "r1") (fst (cancel_end seven Z.div (req1 60 60) (Some false) st1)) = [(SStr "a", 100, SInt 7)].
Proof.
  cbv zeta. split; [split; vm_compute; [constructor|intros ? ? []]|]. split; [split; vm_compute; apply f_here; reflexivity|].
  split; [intros (b & g & _ & B & G & L); injection B as <-; injection G as <-; lia|]. split; [vm_compute; reflexivity|]. split; vm_compute; reflexivity.
Qed.
