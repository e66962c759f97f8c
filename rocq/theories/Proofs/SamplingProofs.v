From Coq Require Import ZArith String List Bool Lia.
From Verif.Base Require Import Result Dict PyStr ListExtra.
From Verif.Model Require Import Text Measurements Cron Preflight ClientReports.
From Verif.Spec Require Import ClientReportSpec SamplingSpec.
From Verif.Proofs Require Import ClientReportProofs.
Import ListNotations.
Local Open Scope string_scope.
Local Open Scope Z_scope.

Lemma seen_app a b : seen (a ++ b) = (seen a ++ seen b)%list.
Proof. apply map_app. Qed.
Lemma seen_len a : length (seen a) = length a.
Proof. apply map_length. Qed.
Lemma seen_series r d (l : list (Z * scalar)) : seen (map (fun '(t, v) => mk_oint r t v d) l) = map (fun p => (r, fst p, snd p)) l.
Proof. unfold seen. rewrite map_map. apply map_ext. now intros [t v]. Qed.

(** What a sampling adds. *)
Lemma sample_all_ok call st mode specifier d broken : mode <> "full" -> forall rids l l' u, sample_all call st specifier rids d broken l = (l', Ok u) ->
  exists vs new, gathered call st mode specifier rids vs /\ l' = (l ++ new)%list /\ seen new = vs /\ Forall (fun i => oi_duration i = d) new.
Proof.
  intros M rids. induction rids as [|r rids IH]; intros l l' u; cbn [sample_all].
  - intros E. injection E as <- <-. exists [], []. rewrite app_nil_r. repeat split; constructor.
  - unfold sample_one. destruct (get ckey_eqb (specifier, r) (cs_callbacks st)) as [c|] eqn:G.
    2:{ intros E. apply IH in E as (vs & new & A & B & C & D). exists vs, new. split; [|auto]. apply (g_cons _ _ _ _ r rids [] vs); [now apply a_nobody|exact A]. }
    assert (K : forall s, (exists v0, call c r = Ok v0 /\ series_of v0 = Ok s) ->
      (if match s with [] => false | _ => broken end then (l, Raise AttributeError) else ((l ++ map (fun '(t, v) => mk_oint r t v d) s)%list, Ok tt)) = (l, Raise AttributeError) \/ answers call st mode specifier r s).
    { intros s (v0 & C & S). right. destruct v0 as [t v|s0|]; cbn [series_of] in S; [| |discriminate].
      - injection S as <-. now apply (a_number _ _ _ _ _ c).
      - injection S as <-. now apply (a_series _ _ _ _ _ c). }
    destruct (call c r) as [v0|e] eqn:C; cbn [bind].
    + destruct (series_of v0) as [s|e] eqn:S.
      * destruct (match s with [] => false | _ => broken end) eqn:BR; [discriminate|]. intros E.
        apply IH in E as (vs & new & A & B & CC & D). destruct (K s) as [X|X]; [eauto| |]; try (rewrite BR in X; discriminate).
        exists (map (fun p => (r, fst p, snd p)) s ++ vs)%list, (map (fun '(t, v) => mk_oint r t v d) s ++ new)%list.
        split; [now constructor|]. split; [now rewrite app_assoc|]. split; [rewrite seen_app, seen_series; now rewrite CC|].
        apply Forall_app. split; [|exact D]. apply Forall_forall. intros i I. apply in_map_iff in I as ([t v] & <- & _). reflexivity.
      * destruct v0; cbn [series_of] in S; try discriminate. injection S as <-. discriminate.
    + destruct e; try discriminate. intros E. apply IH in E as (vs & new & A & B & CC & D). exists vs, new. split; [|auto].
      apply (g_cons _ _ _ _ r rids [] vs); [now apply (a_key _ _ _ _ _ c)|exact A].
Qed.

Lemma collect_full_ok call st specifier : forall rids l l' u, collect_full call st specifier rids l = (l', Ok u) ->
  exists vs new, gathered call st "full" specifier rids vs /\ l' = (l ++ new)%list /\ seen new = vs /\ Forall (fun i => oi_duration i = None) new.
Proof.
  intros rids. induction rids as [|r rids IH]; intros l l' u; cbn [collect_full].
  - intros E. injection E as <- <-. exists [], []. rewrite app_nil_r. repeat split; constructor.
  - destruct (get ckey_eqb (specifier, r) (cs_callbacks st)) as [c|] eqn:G; [|discriminate].
    destruct (call c r) as [v0|e] eqn:C; cbn [bind]; [|discriminate]. destruct v0 as [t v|s|]; try discriminate. intros E.
    apply IH in E as (vs & new & A & B & CC & D).
    exists (map (fun p => (r, fst p, snd p)) s ++ vs)%list, (map (fun '(t, v) => mk_oint r t v None) s ++ new)%list.
    split; [constructor; [now apply (a_series _ _ _ _ _ c)|exact A]|]. split; [now rewrite app_assoc|]. split; [rewrite seen_app, seen_series; now rewrite CC|].
    apply Forall_app. split; [|exact D]. apply Forall_forall. intros i I. apply in_map_iff in I as ([t v] & <- & _). reflexivity.
Qed.

(** The duration of the values: line 903. *)
Definition period (request : rr) (report : crep) (name : string) : option Z :=
  if (cr_mode report =? "full")%string then None
  else if (name =? "TELEMETRY_USAGE")%string then match rr_back request with Some 0 => rr_gran request | _ => None end else None.

Lemma collect_ok call st request report og l u : collect call st request report og = (l, Ok u) ->
  exists vs new, gathered call st (cr_mode report) (rr_specifier request) (rids_of st request) vs /\ l = (og_intervals og ++ new)%list /\ seen new = vs /\
    Forall (fun i => oi_duration i = period request report (og_name og)) new.
Proof.
  unfold collect, period. destruct (cr_mode report =? "full")%string eqn:M.
  - apply String.eqb_eq in M. rewrite M. destruct (back_of request report), (rr_gran request); try discriminate. apply collect_full_ok.
  - apply String.eqb_neq in M. intros E. apply (sample_all_ok _ _ _ _ _ _ M) in E as (vs & new & A & B & C & D). exists vs, new.
    split; [exact A|]. split; [exact B|]. split; [exact C|]. eapply Forall_impl; [|exact D]. intros i ->.
    destruct (og_name og =? "TELEMETRY_USAGE")%string; cbn [andb]; [|reflexivity]. destruct (rr_back request) as [[| |]|]; reflexivity.
Qed.

(** And when it does not succeed, values are only added. *)
Lemma sample_all_grows call st specifier d broken : forall rids l l' x, sample_all call st specifier rids d broken l = (l', x) -> (length l <= length l')%nat.
Proof.
  intros rids. induction rids as [|r rids IH]; intros l l' x; cbn [sample_all]; [intros E; injection E as <- <-; lia|].
  destruct (sample_one call st specifier r d broken l) as [l1 y] eqn:S.
  assert (G : (length l <= length l1)%nat).
  { unfold sample_one in S. destruct (get ckey_eqb (specifier, r) (cs_callbacks st)); [|injection S as <- _; lia].
    destruct (bind (call n r) series_of) as [s|e].
    - destruct (match s with [] => false | _ => broken end); injection S as <- _; [lia|]. rewrite app_length. lia.
    - destruct e; injection S as <- _; lia. }
  destruct y; intros E; [apply IH in E; lia|injection E as <- _; lia].
Qed.
Lemma collect_full_grows call st specifier : forall rids l l' x, collect_full call st specifier rids l = (l', x) -> (length l <= length l')%nat.
Proof.
  intros rids. induction rids as [|r rids IH]; intros l l' x; cbn [collect_full]; [intros E; injection E as <- <-; lia|].
  destruct (get ckey_eqb (specifier, r) (cs_callbacks st)); [|intros E; injection E as <- _; lia].
  destruct (bind (call n r) _); [|intros E; injection E as <- _; lia]. intros E. apply IH in E. rewrite app_length in E. lia.
Qed.
Lemma collect_grows call st request report og l x : collect call st request report og = (l, x) -> (length (og_intervals og) <= length l)%nat.
Proof.
  unfold collect. destruct (cr_mode report =? "full")%string; [|apply sample_all_grows].
  destruct (back_of request report), (rr_gran request); try (intros E; injection E as <- _; lia). apply collect_full_grows.
Qed.

Lemma asked_find id request report st : asked_for id request report st ->
  find_request id (cs_requests st) = Some request /\ find_report (rr_specifier request) (cs_reports st) = Some report.
Proof.
  intros (A1 & A2). split.
  - apply (find_first _ _ (scalar_eqb_P rr_id id)). exact A1.
  - apply (find_first _ _ (scalar_eqb_P cr_specifier (rr_specifier request))). exact A2.
Qed.
Lemma asked_same id request report st st' : same_but_outgoing st st' -> asked_for id request report st -> asked_for id request report st'.
Proof. intros (A1 & A2 & A3 & A4 & A5 & A6 & A7). unfold asked_for. now rewrite A2, A4. Qed.

Definition filed (id : scalar) (report : crep) (st : cstate) : outgoing :=
  match get scalar_eqb id (cs_incomplete st) with
  | Some og => og
  | None => mk_outgoing id (cr_specifier report) (outgoing_name (cr_name report)) [] None
  end.
Lemma filed_held id report st : og_intervals (filed id report st) = held id st.
Proof. unfold filed, held. now destruct (get scalar_eqb id (cs_incomplete st)). Qed.
Lemma filed_id id report st : coherent st -> og_request (filed id report st) = id.
Proof. intros C. unfold filed. destruct (get scalar_eqb id (cs_incomplete st)) as [og|] eqn:G; [|reflexivity]. now apply (coherent_get st id og C). Qed.

Lemma collects_dec request report : (exists b g, collects request report b g) \/ ~ exists b g, collects request report b g.
Proof.
  unfold collects. destruct (string_dec (cr_mode report) "incremental") as [M|M]; [|right; intros (b & g & H & _); contradiction].
  destruct (rr_back request) as [b|]; [|right; intros (b & g & _ & H & _); discriminate].
  destruct (rr_gran request) as [g|]; [|right; intros (b' & g & _ & _ & H & _); discriminate].
  destruct (Z_lt_dec 0 g) as [P|P]; [destruct (Z_lt_dec g b) as [Q|Q]|].
  - left. exists b, g. auto.
  - right. intros (b' & g' & _ & E1 & E2 & H). injection E1 as <-. injection E2 as <-. lia.
  - right. intros (b' & g' & _ & E1 & E2 & H). injection E1 as <-. injection E2 as <-. lia.
Qed.

(** update_report, in the two situations. *)
Lemma update_collecting call quotient id st request report b g : asked_for id request report st -> collects request report b g ->
  update_report call quotient id st =
  match collect call st request report (filed id report st) with
  | (l, Raise e) =>
    (match get scalar_eqb id (cs_incomplete st), og_intervals (filed id report st) with
     | Some og, _ :: _ => set_outgoing (set scalar_eqb id (mk_outgoing (og_request og) (og_specifier og) (og_name og) l (og_dtstart og)) (cs_incomplete st)) (cs_pending st) st
     | _, _ => st end, Raise e)
  | (l, Ok _) =>
    let og := mk_outgoing (og_request (filed id report st)) (og_specifier (filed id report st)) (og_name (filed id report st)) l (match total_minimum l with Some t => Some t | None => og_dtstart (filed id report st) end) in
    if Z.of_nat (length l) =? Z.of_nat (length (rids_of st request)) * quotient b g then
      match get scalar_eqb id (cs_incomplete st) with
      | Some _ => (set_outgoing (del scalar_eqb id (set scalar_eqb id og (cs_incomplete st))) (cs_pending st ++ [og])%list st, Ok tt)
      | None => (st, Raise KeyError)
      end
    else (set_outgoing (set scalar_eqb id og (match get scalar_eqb id (cs_incomplete st) with Some _ => set scalar_eqb id og (cs_incomplete st) | None => cs_incomplete st end)) (cs_pending st) st, Ok tt)
  end.
Proof.
  intros A (M & B & G & GP). destruct (asked_find _ _ _ _ A) as [F1 F2]. unfold update_report. rewrite F1, F2. cbv zeta.
  change (match get scalar_eqb id (cs_incomplete st) with Some og => og | None => mk_outgoing id _ _ _ _ end) with (filed id report st).
  destruct (collect call st request report (filed id report st)) as [l [u|e]]; [|reflexivity].
  unfold back_of. rewrite M. change (("incremental" =? "incremental")%string) with true. change ("incremental" =? "full")%string with false. cbv iota. rewrite B, G.
  assert (T : (0 <? g) && (g <? b) = true) by (apply andb_true_iff; split; apply Z.ltb_lt; lia). rewrite T.
  destruct (Z.of_nat (length l) =? _); [|reflexivity]. now destruct (get scalar_eqb id (cs_incomplete st)).
Qed.

Lemma update_direct call quotient id st request report : asked_for id request report st -> (~ exists b g, collects request report b g) ->
  (cr_mode report = "incremental" -> rr_back request <> None -> rr_gran request <> None) ->
  update_report call quotient id st =
  match collect call st request report (filed id report st) with
  | (l, Raise e) =>
    (match get scalar_eqb id (cs_incomplete st), og_intervals (filed id report st) with
     | Some og, _ :: _ => set_outgoing (set scalar_eqb id (mk_outgoing (og_request og) (og_specifier og) (og_name og) l (og_dtstart og)) (cs_incomplete st)) (cs_pending st) st
     | _, _ => st end, Raise e)
  | (l, Ok _) =>
    let og := mk_outgoing (og_request (filed id report st)) (og_specifier (filed id report st)) (og_name (filed id report st)) l (match total_minimum l with Some t => Some t | None => og_dtstart (filed id report st) end) in
    (set_outgoing (match get scalar_eqb id (cs_incomplete st) with Some _ => set scalar_eqb id og (cs_incomplete st) | None => cs_incomplete st end) (cs_pending st ++ [og])%list st, Ok tt)
  end.
Proof.
  intros A N W. destruct (asked_find _ _ _ _ A) as [F1 F2]. unfold update_report. rewrite F1, F2. cbv zeta.
  change (match get scalar_eqb id (cs_incomplete st) with Some og => og | None => mk_outgoing id _ _ _ _ end) with (filed id report st).
  destruct (collect call st request report (filed id report st)) as [l [u|e]]; [|reflexivity].
  destruct (cr_mode report =? "incremental")%string eqn:M; [|reflexivity]. apply String.eqb_eq in M. unfold back_of. rewrite M. change ("incremental" =? "full")%string with false. cbv iota.
  destruct (rr_back request) as [b|] eqn:B; [|reflexivity]. destruct (rr_gran request) as [g|] eqn:G; [|elim (W M); [discriminate|reflexivity]].
  destruct ((0 <? g) && (g <? b)) eqn:T; [|reflexivity]. elim N. exists b, g. apply andb_true_iff in T as [T1 T2]. apply Z.ltb_lt in T1, T2. split; [exact M|]. auto.
Qed.

(** Without a granularity: an error, line 917. *)
Lemma update_no_granularity call quotient id st request report st' : asked_for id request report st -> cr_mode report = "incremental" ->
  rr_back request <> None -> rr_gran request = None -> update_report call quotient id st <> (st', Ok tt).
Proof.
  intros A M B G. destruct (asked_find _ _ _ _ A) as [F1 F2]. unfold update_report. rewrite F1, F2. cbv zeta.
  destruct (collect _ _ _ _ _) as [l [u|e]]; [|discriminate]. unfold back_of. rewrite M. cbn [String.eqb Ascii.eqb Bool.eqb]. cbv iota. rewrite G. destruct (rr_back request); [discriminate|congruence].
Qed.

(** One sampling that succeeds. *)
Lemma update_ok call quotient id st st' : coherent st -> update_report call quotient id st = (st', Ok tt) ->
  exists request report vs og, asked_for id request report st /\ gathered call st (cr_mode report) (rr_specifier request) (rids_of st request) vs /\
    og_request og = id /\ seen (og_intervals og) = (seen (held id st) ++ vs)%list /\
    (og_intervals og <> [] -> exists t, og_dtstart og = Some t /\ earliest (og_intervals og) t) /\
    (exists new, og_intervals og = (held id st ++ new)%list /\ Forall (fun i => oi_duration i = period request report (og_name og)) new) /\
    ((~ exists b g, collects request report b g) /\ cs_pending st' = (cs_pending st ++ [og])%list /\ get scalar_eqb id (cs_incomplete st') = option_map (fun _ => og) (get scalar_eqb id (cs_incomplete st)) \/
     (exists b g, collects request report b g /\ Z.of_nat (length (og_intervals og)) = Z.of_nat (length (rids_of st request)) * quotient b g) /\
       get scalar_eqb id (cs_incomplete st) <> None /\ cs_pending st' = (cs_pending st ++ [og])%list /\ get scalar_eqb id (cs_incomplete st') = None \/
     (exists b g, collects request report b g /\ Z.of_nat (length (og_intervals og)) <> Z.of_nat (length (rids_of st request)) * quotient b g) /\
       cs_pending st' = cs_pending st /\ get scalar_eqb id (cs_incomplete st') = Some og).
Proof.
  intros CO U.
  assert (AF : exists request report, asked_for id request report st).
  { unfold update_report in U. destruct (find_request id (cs_requests st)) as [request|] eqn:F1; [|discriminate].
    destruct (find_report (rr_specifier request) (cs_reports st)) as [report|] eqn:F2; [|discriminate]. exists request, report. split.
    - apply (find_first _ _ (scalar_eqb_P rr_id id)) in F1. exact F1.
    - apply (find_first _ _ (scalar_eqb_P cr_specifier (rr_specifier request))) in F2. exact F2. }
  destruct AF as (request & report & AF). exists request, report. pose proof (filed_id id report st CO) as FI. pose proof (filed_held id report st) as FH.
  destruct (collects_dec request report) as [(b & g & CL)|NC].
  - rewrite (update_collecting _ _ _ _ _ _ _ _ AF CL) in U. destruct (collect call st request report (filed id report st)) as [l [u|e]] eqn:CC; [|discriminate].
    destruct (collect_ok _ _ _ _ _ _ _ CC) as (vs & new & G & L & S & D). cbv zeta in U. set (og := mk_outgoing _ _ _ l _) in U. exists vs, og.
    assert (P1 : og_request og = id) by exact FI.
    assert (P2 : seen (og_intervals og) = (seen (held id st) ++ vs)%list) by (cbn [og og_intervals]; rewrite L, seen_app, S, FH; reflexivity).
    assert (P3 : og_intervals og <> [] -> exists t, og_dtstart og = Some t /\ earliest (og_intervals og) t).
    { cbn [og og_intervals og_dtstart]. intros NE. destruct (total_minimum_some l NE) as (t & T). exists t. rewrite T. split; [reflexivity|]. now apply total_minimum_earliest. }
    assert (P4 : exists new, og_intervals og = (held id st ++ new)%list /\ Forall (fun i => oi_duration i = period request report (og_name og)) new).
    { exists new. cbn [og og_intervals og_name]. rewrite <- FH. auto. }
    split; [exact AF|]. split; [exact G|]. split; [exact P1|]. split; [exact P2|]. split; [exact P3|]. split; [exact P4|]. right.
    destruct (Z.of_nat (length l) =? Z.of_nat (length (rids_of st request)) * quotient b g) eqn:E.
    + apply Z.eqb_eq in E. destruct (get scalar_eqb id (cs_incomplete st)) as [og0|] eqn:GG; [|discriminate]. injection U as <-. left.
      split; [exists b, g; split; [exact CL|exact E]|]. split; [discriminate|]. split; [reflexivity|].
      cbn [set_outgoing cs_incomplete]. apply (get_del_same scalar_eqb scalar_eqb_eq). apply (nodup_set scalar_eqb scalar_eqb_eq). apply CO.
    + apply Z.eqb_neq in E. injection U as <-. right. split; [exists b, g; split; [exact CL|exact E]|]. split; [reflexivity|].
      cbn [set_outgoing cs_incomplete]. apply (get_set_same scalar_eqb scalar_eqb_eq).
  - assert (W : cr_mode report = "incremental" -> rr_back request <> None -> rr_gran request <> None).
    { intros M B G. elim (update_no_granularity _ _ _ _ _ _ _ AF M B G U). }
    rewrite (update_direct _ _ _ _ _ _ AF NC W) in U. destruct (collect call st request report (filed id report st)) as [l [u|e]] eqn:CC; [|discriminate].
    destruct (collect_ok _ _ _ _ _ _ _ CC) as (vs & new & G & L & S & D). cbv zeta in U. set (og := mk_outgoing _ _ _ l _) in U. exists vs, og.
    assert (P1 : og_request og = id) by exact FI.
    assert (P2 : seen (og_intervals og) = (seen (held id st) ++ vs)%list) by (cbn [og og_intervals]; rewrite L, seen_app, S, FH; reflexivity).
    assert (P3 : og_intervals og <> [] -> exists t, og_dtstart og = Some t /\ earliest (og_intervals og) t).
    { cbn [og og_intervals og_dtstart]. intros NE. destruct (total_minimum_some l NE) as (t & T). exists t. rewrite T. split; [reflexivity|]. now apply total_minimum_earliest. }
    assert (P4 : exists new, og_intervals og = (held id st ++ new)%list /\ Forall (fun i => oi_duration i = period request report (og_name og)) new).
    { exists new. cbn [og og_intervals og_name]. rewrite <- FH. auto. }
    split; [exact AF|]. split; [exact G|]. split; [exact P1|]. split; [exact P2|]. split; [exact P3|]. split; [exact P4|]. left.
    split; [exact NC|]. injection U as <-. split; [reflexivity|]. cbn [set_outgoing cs_incomplete].
    destruct (get scalar_eqb id (cs_incomplete st)) eqn:GG; [apply (get_set_same scalar_eqb scalar_eqb_eq)|exact GG].
Qed.

(** ** Samplings that are answered succeed *)
Lemma gathered_sample call st mode specifier d : mode <> "full" -> forall rids vs, gathered call st mode specifier rids vs ->
  forall l, exists new, sample_all call st specifier rids d false l = ((l ++ new)%list, Ok tt) /\ seen new = vs.
Proof.
  intros M rids vs G. induction G as [|r rs s vs A G IH]; intros l; cbn [sample_all].
  - exists []. now rewrite app_nil_r.
  - assert (S1 : sample_one call st specifier r d false l = ((l ++ map (fun '(t, v) => mk_oint r t v d) s)%list, Ok tt)).
    { unfold sample_one. destruct A as [c t v _ K C|c s K C|_ K|c _ K C]; rewrite K; try rewrite C; cbn [bind series_of].
      - reflexivity.
      - destruct s; reflexivity.
      - cbn [map]. now rewrite app_nil_r.
      - cbn [map]. now rewrite app_nil_r. }
    rewrite S1. destruct (IH (l ++ map (fun '(t, v) => mk_oint r t v d) s)%list) as (new & E & S). exists (map (fun '(t, v) => mk_oint r t v d) s ++ new)%list.
    rewrite E, app_assoc. split; [reflexivity|]. rewrite seen_app, seen_series. now rewrite S.
Qed.
Lemma gathered_full call st specifier : forall rids vs, gathered call st "full" specifier rids vs ->
  forall l, exists new, collect_full call st specifier rids l = ((l ++ new)%list, Ok tt) /\ seen new = vs.
Proof.
  intros rids vs G. induction G as [|r rs s vs A G IH]; intros l; cbn [collect_full].
  - exists []. now rewrite app_nil_r.
  - destruct A as [c t v M K C|c s K C|M K|c M K C]; [congruence| |congruence|congruence]. rewrite K, C. cbn [bind].
    destruct (IH (l ++ map (fun '(t, v) => mk_oint r t v None) s)%list) as (new & E & S). exists (map (fun '(t, v) => mk_oint r t v None) s ++ new)%list.
    rewrite E, app_assoc. split; [reflexivity|]. rewrite seen_app, seen_series. now rewrite S.
Qed.
Lemma gathered_collect call st request report og vs b g : rr_back request = Some b -> rr_gran request = Some g ->
  gathered call st (cr_mode report) (rr_specifier request) (rids_of st request) vs ->
  exists new, collect call st request report og = ((og_intervals og ++ new)%list, Ok tt) /\ seen new = vs.
Proof.
  intros B G GA. unfold collect. destruct (cr_mode report =? "full")%string eqn:M.
  - apply String.eqb_eq in M. unfold back_of. rewrite M. cbn [String.eqb Ascii.eqb Bool.eqb]. rewrite B, G. rewrite M in GA. now apply gathered_full.
  - apply String.eqb_neq in M. rewrite B. rewrite andb_false_r. now apply (gathered_sample call st (cr_mode report)).
Qed.

Lemma answers_fun call st mode specifier r a b : answers call st mode specifier r a -> answers call st mode specifier r b -> a = b.
Proof. intros A B. destruct A; destruct B; congruence. Qed.
Lemma gathered_fun call st mode specifier rids a : gathered call st mode specifier rids a -> forall b, gathered call st mode specifier rids b -> a = b.
Proof. intros A. induction A as [|r rs l vs A G IH]; intros b B; inversion B as [|? ? l' vs' A' G']; subst; [reflexivity|]. rewrite (answers_fun _ _ _ _ _ _ _ A A'). f_equal. auto. Qed.

Lemma gathered_same call st st' mode specifier rids vs : same_but_outgoing st st' -> gathered call st mode specifier rids vs -> gathered call st' mode specifier rids vs.
Proof.
  intros (A1 & A2 & A3 & A4 & A5 & A6 & A7) G. induction G as [|r rs l vs A G IH]; constructor; [|exact IH].
  destruct A as [c t v M K C|c s K C|M K|c M K C]; rewrite <- A3 in K; [now apply (a_number _ _ _ _ _ c)|now apply (a_series _ _ _ _ _ c)|now apply a_nobody|now apply (a_key _ _ _ _ _ c)].
Qed.
