From Coq Require Import ZArith String List Bool Lia.
From Verif.Base Require Import Result Dict PyStr ListExtra.
From Verif.Model Require Import Text Measurements Cron Preflight ClientReports.
From Verif.Spec Require Import ClientReportSpec.
Import ListNotations.
Local Open Scope string_scope.
Local Open Scope Z_scope.

(** ** Searching *)
Lemma find_first {A} (f : A -> bool) (P : A -> Prop) (H : forall x, f x = true <-> P x) l x : find f l = Some x <-> first P l x.
Proof.
  induction l as [|y l IH]; cbn [find].
  - split; [discriminate|intros F; inversion F].
  - destruct (f y) eqn:E.
    + apply H in E. split; [intros Q; injection Q as <-; now constructor|]. intros F. inversion F; subst; [reflexivity|contradiction].
    + assert (N : ~ P y) by (intros p; apply H in p; congruence). rewrite IH. split; [now constructor|]. intros F. inversion F; subst; [contradiction|assumption].
Qed.

Lemma find_none_iff {A} (f : A -> bool) (P : A -> Prop) (H : forall x, f x = true <-> P x) l : find f l = None <-> forall x, In x l -> ~ P x.
Proof.
  split.
  - intros F x I p. apply (find_none _ _ F) in I. apply H in p. congruence.
  - intros N. destruct (find f l) as [x|] eqn:F; [|reflexivity]. apply find_some in F as [I E]. apply H in E. elim (N x I E).
Qed.

Lemma first_In {A} (P : A -> Prop) l x : first P l x -> In x l /\ P x.
Proof. intros F. induction F; simpl; tauto. Qed.

Lemma first_fun {A} (P : A -> Prop) l x y : first P l x -> first P l y -> x = y.
Proof. intros F. induction F; intros G; inversion G; subst; auto; contradiction. Qed.

(** ** update_report changes only the outgoing reports *)
Definition same_but_outgoing (a b : cstate) : Prop :=
  cs_heap b = cs_heap a /\ cs_reports b = cs_reports a /\ cs_callbacks b = cs_callbacks a /\ cs_requests b = cs_requests a /\
  cs_frames b = cs_frames a /\ cs_jobs b = cs_jobs a /\ cs_next_job b = cs_next_job a.

(** ** The names and rates of the specification *)
Lemma without_skip w k : forall a r, String.length a = k -> without w k (a ++ r) = without w 0 r.
Proof. induction k as [|k IH]; intros [|c a] r L; try discriminate L; [reflexivity|]. cbn [String.append without]. apply IH. now injection L. Qed.
Lemma without_stripped n : forall s, (String.length s <= n)%nat -> stripped s (without "METADATA_" 0 s).
Proof.
  induction n as [|n IH]; intros s L; [destruct s; [constructor | cbn in L; lia]|]. destruct s as [|c r]; [constructor|]. cbn [without].
  destruct (startswith "METADATA_" (String c r)) eqn:W.
  - apply startswith_spec in W as (t & E). rewrite E. cbn [String.append] in E. injection E as -> ->. change (String.length "METADATA_" - 1)%nat with 8%nat.
    rewrite (without_skip _ 8 "ETADATA_" t) by reflexivity. apply (st_drop t), IH. cbn in L. lia.
  - apply st_keep; [|apply IH; cbn in L; lia]. intros t E. assert (X : startswith "METADATA_" (String c r) = true) by (apply startswith_spec; eauto). congruence.
Qed.
Lemma stripped_id s : contains "METADATA" s = false -> stripped s s.
Proof.
  induction s as [|c s IH]; intros C; [constructor|]. cbn [contains] in C. apply orb_false_iff in C as [C1 C2]. apply st_keep; [|now apply IH].
  intros t E. assert (X : startswith "METADATA" (String c s) = true) by (apply startswith_spec; exists ("_" ++ t); exact E). congruence.
Qed.
Lemma outgoing_stripped n : stripped n (outgoing_name n).
Proof. unfold outgoing_name. destruct (contains "METADATA" n) eqn:C; [now apply (without_stripped (String.length n)) | now apply stripped_id]. Qed.
Lemma rate_rated r : rated r (fst (rate_of r)) (snd (rate_of r)).
Proof. destruct r; constructor. Qed.

Lemma same_refl st : same_but_outgoing st st.
Proof. unfold same_but_outgoing; auto 10. Qed.
Lemma same_outgoing st i p : same_but_outgoing st (set_outgoing i p st).
Proof. unfold same_but_outgoing; auto 10. Qed.
Lemma same_trans a b c : same_but_outgoing a b -> same_but_outgoing b c -> same_but_outgoing a c.
Proof. unfold same_but_outgoing. intuition congruence. Qed.

(** Every case of update_report: what is added to the queue and what is in
    progress afterwards. *)
Lemma update_shape call quotient id st : forall st' x, update_report call quotient id st = (st', x) ->
  same_but_outgoing st st' /\
  (exists sent, cs_pending st' = (cs_pending st ++ sent)%list /\ (sent = [] \/ exists og, sent = [og])) .
Proof.
  intros st' x. unfold update_report.
  destruct (find_request id (cs_requests st)) as [request|]; [|intros E; injection E as <- <-; split; [apply same_refl|exists []; rewrite app_nil_r; auto]].
  destruct (find_report (rr_specifier request) (cs_reports st)) as [report|]; [|intros E; injection E as <- <-; split; [apply same_refl|exists []; rewrite app_nil_r; auto]].
  cbv zeta. set (og := match get scalar_eqb id (cs_incomplete st) with Some og => og | None => _ end).
  destruct (collect call st request report og) as [l [u|e]].
  2:{ intros E. injection E as <- <-. destruct (get scalar_eqb id (cs_incomplete st)), (og_intervals og);
      (split; [first [apply same_refl|apply same_outgoing]|exists []; rewrite app_nil_r; auto]). }
  set (og' := mk_outgoing _ _ _ l _).
  set (incomplete := match get scalar_eqb id (cs_incomplete st) with Some _ => _ | None => _ end).
  destruct (cr_mode report =? "incremental")%string.
  2:{ intros E. injection E as <- <-. split; [apply same_outgoing|exists [og']; eauto]. }
  destruct (back_of request report) as [b|].
  2:{ intros E. injection E as <- <-. split; [apply same_outgoing|exists [og']; eauto]. }
  destruct (rr_gran request) as [g|].
  2:{ intros E. injection E as <- <-. split; [apply same_outgoing|exists []; rewrite app_nil_r; auto]. }
  destruct ((0 <? g) && (g <? b)).
  2:{ intros E. injection E as <- <-. split; [apply same_outgoing|exists [og']; eauto]. }
  destruct (Z.of_nat (length l) =? _).
  - destruct (get scalar_eqb id (cs_incomplete st)); intros E; injection E as <- <-.
    + split; [apply same_outgoing|exists [og']; eauto].
    + split; [apply same_refl|exists []; rewrite app_nil_r; auto].
  - intros E. injection E as <- <-. split; [apply same_outgoing|exists []; rewrite app_nil_r; auto].
Qed.

Lemma update_same call quotient id st : same_but_outgoing st (fst (update_report call quotient id st)).
Proof. destruct (update_report call quotient id st) as [st' x] eqn:E. simpl. now apply update_shape in E. Qed.

(** Other reports in progress are left alone. *)
Lemma update_other call quotient id st id' : id' <> id -> NoDup (map fst (cs_incomplete st)) ->
  get scalar_eqb id' (cs_incomplete (fst (update_report call quotient id st))) = get scalar_eqb id' (cs_incomplete st).
Proof.
  intros N ND. unfold update_report.
  destruct (find_request id (cs_requests st)) as [request|]; [|reflexivity].
  destruct (find_report (rr_specifier request) (cs_reports st)) as [report|]; [|reflexivity].
  cbv zeta. set (og := match get scalar_eqb id (cs_incomplete st) with Some og => og | None => _ end).
  destruct (collect call st request report og) as [l [u|e]].
  2:{ destruct (get scalar_eqb id (cs_incomplete st)), (og_intervals og); try reflexivity. simpl. now rewrite (get_set_other scalar_eqb scalar_eqb_eq). }
  set (og' := mk_outgoing _ _ _ l _).
  assert (I : get scalar_eqb id' (match get scalar_eqb id (cs_incomplete st) with Some _ => set scalar_eqb id og' (cs_incomplete st) | None => cs_incomplete st end)
              = get scalar_eqb id' (cs_incomplete st)).
  { destruct (get scalar_eqb id (cs_incomplete st)); [|reflexivity]. now rewrite (get_set_other scalar_eqb scalar_eqb_eq). }
  destruct (cr_mode report =? "incremental")%string; [|exact I].
  destruct (back_of request report) as [b|]; [|exact I]. destruct (rr_gran request) as [g|]; [|exact I].
  destruct ((0 <? g) && (g <? b)); [|exact I]. destruct (Z.of_nat (length l) =? _).
  - destruct (get scalar_eqb id (cs_incomplete st)); [|reflexivity]. simpl. rewrite (get_del_other scalar_eqb scalar_eqb_eq) by assumption. exact I.
  - simpl. rewrite (get_set_other scalar_eqb scalar_eqb_eq) by assumption. exact I.
Qed.

Lemma update_nodup call quotient id st : NoDup (map fst (cs_incomplete st)) -> NoDup (map fst (cs_incomplete (fst (update_report call quotient id st)))).
Proof.
  intros ND. unfold update_report.
  destruct (find_request id (cs_requests st)) as [request|]; [|assumption].
  destruct (find_report (rr_specifier request) (cs_reports st)) as [report|]; [|assumption].
  cbv zeta. set (og := match get scalar_eqb id (cs_incomplete st) with Some og => og | None => _ end).
  destruct (collect call st request report og) as [l [u|e]].
  2:{ destruct (get scalar_eqb id (cs_incomplete st)), (og_intervals og); try assumption. simpl. now apply (nodup_set scalar_eqb scalar_eqb_eq). }
  set (og' := mk_outgoing _ _ _ l _).
  assert (I : NoDup (map fst (match get scalar_eqb id (cs_incomplete st) with Some _ => set scalar_eqb id og' (cs_incomplete st) | None => cs_incomplete st end))).
  { destruct (get scalar_eqb id (cs_incomplete st)); [|assumption]. now apply (nodup_set scalar_eqb scalar_eqb_eq). }
  destruct (cr_mode report =? "incremental")%string; [|exact I].
  destruct (back_of request report) as [b|]; [|exact I]. destruct (rr_gran request) as [g|]; [|exact I].
  destruct ((0 <? g) && (g <? b)); [|exact I]. destruct (Z.of_nat (length l) =? _).
  - destruct (get scalar_eqb id (cs_incomplete st)); [|assumption]. simpl. now apply (nodup_del scalar_eqb).
  - simpl. now apply (nodup_set scalar_eqb scalar_eqb_eq).
Qed.

(** Every outgoing report, queued or in progress, carries the id it is filed under. *)
Definition coherent (st : cstate) : Prop :=
  NoDup (map fst (cs_incomplete st)) /\ forall id og, In (id, og) (cs_incomplete st) -> og_request og = id.

Lemma coherent_get st id og : coherent st -> get scalar_eqb id (cs_incomplete st) = Some og -> og_request og = id.
Proof. intros [_ C] G. apply C. eapply get_in; [exact scalar_eqb_eq|exact G]. Qed.

Lemma update_coherent call quotient id st : coherent st ->
  coherent (fst (update_report call quotient id st)) /\
  exists sent, cs_pending (fst (update_report call quotient id st)) = (cs_pending st ++ sent)%list /\ forall og, In og sent -> og_request og = id.
Proof.
  intros C. assert (ND := proj1 C). pose proof (update_nodup call quotient id st ND) as ND'.
  assert (G : (forall og, get scalar_eqb id (cs_incomplete (fst (update_report call quotient id st))) = Some og -> og_request og = id) /\
              exists sent, cs_pending (fst (update_report call quotient id st)) = (cs_pending st ++ sent)%list /\ forall og, In og sent -> og_request og = id).
  { assert (Z0 : forall og, get scalar_eqb id (cs_incomplete st) = Some og -> og_request og = id) by (intros og; now apply coherent_get).
    assert (E0 : exists sent, cs_pending st = (cs_pending st ++ sent)%list /\ forall og, In og sent -> og_request og = id) by (exists []; rewrite app_nil_r; split; [reflexivity|intros ? []]).
    clear ND'. unfold update_report.
    destruct (find_request id (cs_requests st)) as [request|]; [|auto].
    destruct (find_report (rr_specifier request) (cs_reports st)) as [report|]; [|auto].
    cbv zeta. set (og := match get scalar_eqb id (cs_incomplete st) with Some og => og | None => _ end).
    assert (OG : og_request og = id).
    { unfold og. destruct (get scalar_eqb id (cs_incomplete st)) eqn:Q; [now apply Z0|reflexivity]. }
    destruct (collect call st request report og) as [l [u|e]].
    2:{ destruct (get scalar_eqb id (cs_incomplete st)) as [o|] eqn:Q; destruct (og_intervals og); try (split; [simpl; rewrite ?Q; exact Z0|exact E0]).
        split; [|exact E0]. simpl. intros o'. rewrite (get_set_same scalar_eqb scalar_eqb_eq). intros H. injection H as <-. simpl. now apply Z0. }
    set (og' := mk_outgoing _ _ _ l _). assert (OG' : og_request og' = id) by exact OG.
    assert (S : exists sent, (cs_pending st ++ [og'])%list = (cs_pending st ++ sent)%list /\ forall o, In o sent -> og_request o = id).
    { exists [og']. split; [reflexivity|]. intros o [<-|[]]. exact OG'. }
    assert (I : forall o, get scalar_eqb id (match get scalar_eqb id (cs_incomplete st) with Some _ => set scalar_eqb id og' (cs_incomplete st) | None => cs_incomplete st end) = Some o -> og_request o = id).
    { intros o. destruct (get scalar_eqb id (cs_incomplete st)) eqn:Q; [rewrite (get_set_same scalar_eqb scalar_eqb_eq); congruence|congruence]. }
    destruct (cr_mode report =? "incremental")%string; [|split; [exact I|exact S]].
    destruct (back_of request report) as [b|]; [|split; [exact I|exact S]]. destruct (rr_gran request) as [g|]; [|split; [exact I|exact E0]].
    destruct ((0 <? g) && (g <? b)); [|split; [exact I|exact S]]. destruct (Z.of_nat (length l) =? _).
    - destruct (get scalar_eqb id (cs_incomplete st)) eqn:Q; [|split; [simpl; rewrite ?Q; exact Z0|exact E0]]. split; [|exact S]. simpl. intros o' H.
      rewrite (get_del_same scalar_eqb scalar_eqb_eq) in H; [discriminate|]. now apply (nodup_set scalar_eqb scalar_eqb_eq).
    - split; [|exact E0]. simpl. intros o'. rewrite (get_set_same scalar_eqb scalar_eqb_eq). congruence. }
  destruct G as [G S]. split; [|exact S]. split; [exact ND'|]. intros i og I.
  apply (in_get_nodup scalar_eqb scalar_eqb_eq _ _ _ ND') in I. destruct (scalar_eq_dec i id) as [->|N]; [auto|].
  rewrite update_other in I by assumption. eapply coherent_get; eassumption.
Qed.

(** ** create_report *)
Lemma scalar_eqb_P {A} (f : A -> scalar) id (x : A) : scalar_eqb (f x) id = true <-> f x = id.
Proof. apply scalar_eqb_eq. Qed.

Lemma oeqb_iff a b : oeqb a b = true <-> a = b.
Proof.
  destruct a as [a|], b as [b|]; simpl; try (split; congruence).
  rewrite String.eqb_eq. split; congruence.
Qed.

Lemma selected_gran heap report z ps rids g' : selected heap report (Some z) ps rids g' -> g' = Some z.
Proof. intros S. remember (Some z) as g eqn:E. revert z E. induction S; intros z ->; try reflexivity; exact (IHS _ eq_refl). Qed.

(** What the loop over the payloads collects, when it does not raise. *)
Lemma check_payloads_selected st report ps : forall single gran rids0 single' gran' rids',
  check_payloads st report (single, gran, rids0) ps = ((single', gran', rids'), Ok tt) ->
  exists rids, rids' = (rids0 ++ rids)%list /\ selected (cs_heap st) report gran ps rids gran' /\
    (single' = true <-> single = true \/ (rids <> [] /\ gran' = Some 0 /\ (gran = Some 0 \/ (1 < length rids)%nat))) .
Proof.
  assert (CP : forall single gran rids0 p,
    match check_payload st report (single, gran, rids0) p with
    | Raise _ => True
    | Ok (single', gran', rids') =>
      (single' = single /\ gran' = gran /\ rids' = rids0 /\ forall rd, ~ (names (cs_heap st) report p rd /\ permitted gran rd)) \/
      (exists rd, names (cs_heap st) report p rd /\ permitted gran rd /\ gran' = Some (match gran with Some x => x | None => cd_hi rd end) /\ rids' = (rids0 ++ [sp_rid p])%list /\
         (single' = true <-> single = true \/ gran = Some 0))
    end).
  { intros single gran rids0 p. unfold check_payload.
    destruct (find_cdesc (sp_rid p) (cr_descs report)) as [rd|] eqn:F.
    2:{ left. split; [reflexivity|]. split; [reflexivity|]. split; [reflexivity|]. intros rd [[H _] _]. unfold find_cdesc in F.
        apply (find_first _ _ (scalar_eqb_P cd_rid (sp_rid p))) in H. congruence. }
    unfold find_cdesc in F. apply (find_first _ _ (scalar_eqb_P cd_rid (sp_rid p))) in F.
    set (M := match sp_meas p with None => Ok true | Some (description, unit) => _ end).
    assert (HM : match M with
                 | Ok true => names (cs_heap st) report p rd
                 | Ok false => ~ names (cs_heap st) report p rd
                 | Raise _ => True end).
    { unfold M, names. destruct (sp_meas p) as [[d u]|].
      - destruct (cd_meas rd) as [a|]; [|exact I]. destruct (nth_error (cs_heap st) a) as [m|] eqn:N; [|exact I].
        destruct (oeqb (Some d) (md_description m) && oeqb (Some u) (md_unit m)) eqn:B.
        + apply andb_true_iff in B as [B1 B2]. apply oeqb_iff in B1, B2. split; [assumption|]. intros d' u' E. injection E as <- <-. exists a, m. auto.
        + intros [_ H]. destruct (H d u eq_refl) as (a' & m' & E & N' & D & U). injection E as <-. rewrite N in N'. injection N' as <-.
          rewrite D, U in B. simpl in B. rewrite !String.eqb_refl in B. discriminate.
      - split; [assumption|]. discriminate. }
    destruct M as [[|]|e]; cbn [bind negb]; [| |exact I].
    - destruct gran as [g|].
      + destruct (g =? 0) eqn:Z0.
        * apply Z.eqb_eq in Z0. subst g. right. exists rd. split; [assumption|]. split; [intros x E; injection E as <-; now left|]. split; [reflexivity|]. split; [reflexivity|]. tauto.
        * apply Z.eqb_neq in Z0. destruct ((cd_lo rd <=? g) && (g <=? cd_hi rd)) eqn:B.
          -- apply andb_true_iff in B as [B1 B2]. apply Z.leb_le in B1, B2. right. exists rd. split; [assumption|].
             split; [intros x E; injection E as <-; right; lia|]. split; [reflexivity|]. split; [reflexivity|]. split; [tauto|]. intros [H|H]; [assumption|congruence].
          -- left. split; [reflexivity|]. split; [reflexivity|]. split; [reflexivity|]. intros rd' [[N _] P].
             assert (rd' = rd) by (eapply first_fun; eassumption). subst rd'. destruct (P g eq_refl) as [H|H]; [congruence|].
             apply andb_false_iff in B as [B|B]; apply Z.leb_gt in B; lia.
      + right. exists rd. split; [assumption|]. split; [discriminate|]. split; [reflexivity|]. split; [reflexivity|]. split; [tauto|]. intros [H|H]; [assumption|discriminate].
    - left. split; [reflexivity|]. split; [reflexivity|]. split; [reflexivity|]. intros rd' [N _].
      assert (rd' = rd) by (destruct N; eapply first_fun; eassumption). subst rd'. contradiction. }
  induction ps as [|p ps IH]; intros single gran rids0 single' gran' rids'; cbn [check_payloads].
  - intros E. injection E as <- <- <-. exists []. rewrite app_nil_r. split; [reflexivity|]. split; [constructor|]. split; [tauto|]. intros [H|(H & _)]; [assumption|congruence].
  - specialize (CP single gran rids0 p). destruct (check_payload st report (single, gran, rids0) p) as [[[s1 g1] r1]|]; [|discriminate]. intros H.
    destruct CP as [(-> & -> & -> & N)|(rd & N & P & -> & -> & S1)].
    + destruct (IH _ _ _ _ _ _ H) as (rids & E & S & Q). exists rids. split; [assumption|]. split; [now constructor|assumption].
    + destruct (IH _ _ _ _ _ _ H) as (rids & E & S & Q). exists (sp_rid p :: rids). split; [rewrite E, <- app_assoc; reflexivity|].
      split; [eapply se_take; eassumption|]. rewrite Q, S1. clear - S.
      assert (GG := selected_gran _ _ _ _ _ _ S).
      split.
      * intros [[H|H]|(NE & E & [H|H])]; [tauto| | |]; right; (split; [discriminate|]).
        -- subst gran. split; [assumption|now left].
        -- split; [assumption|]. right. destruct rids; [congruence|simpl; lia].
        -- split; [assumption|]. right. simpl. lia.
      * intros [H|(_ & E & [H|H])]; [tauto|tauto|]. right. simpl in H. destruct rids as [|r0 rids]; [simpl in H; lia|]. split; [discriminate|]. split; [assumption|]. left. congruence.
Qed.

Lemma is_invalid_marked q b : is_invalid q = Ok b -> b = true <-> marked_invalid q.
Proof.
  unfold is_invalid, marked_invalid. destruct (cq_payloads q) as [|p ps]; [discriminate|]. destruct (cq_specifier q) as [| | | |s]; try discriminate.
  cbn [mentions_INVALID bind]. destruct (contains "INVALID" s) eqn:C.
  - intros E. injection E as <-. split; [intros _|reflexivity]. exists p, ps. split; [reflexivity|]. exists s. split; [now left|]. now apply contains_spec.
  - assert (NC : ~ exists a c, s = (a ++ "INVALID" ++ c)%string) by (intros H; apply contains_spec in H; congruence).
    assert (W : forall x, (exists p0 ps0, p :: ps = p0 :: ps0 /\ exists t, (SStr s = SStr t \/ sp_rid p0 = SStr t) /\ exists a c, t = (a ++ "INVALID" ++ c)%string) ->
                sp_rid p = SStr x -> contains "INVALID" x = true).
    { intros x (p0 & ps0 & E0 & t & [E|E] & H) R.
      - injection E as <-. contradiction.
      - injection E0 as <- <-. rewrite R in E. injection E as <-. now apply contains_spec. }
    destruct (sp_rid p) as [| | | |x] eqn:R; intros E; injection E as <-;
      try (split; [discriminate|]; intros (p0 & ps0 & E0 & t & [E|E] & H); [injection E as <-; contradiction|injection E0 as <- <-; congruence]).
    split.
    + intros H. exists p, ps. split; [reflexivity|]. exists x. split; [now right|]. now apply contains_spec.
    + intros H. now apply (W x).
Qed.

Lemma nth_update_same {A} n (f : A -> A) l x : nth_error l n = Some x -> nth_error (update_nth n f l) n = Some (f x).
Proof. revert l. induction n; intros [|y l]; simpl; try discriminate; [congruence|apply IHn]. Qed.
Lemma nth_update_other {A} n m (f : A -> A) l : n <> m -> nth_error (update_nth n f l) m = nth_error l m.
Proof. revert m l. induction n; intros [|m] [|y l] N; simpl; try reflexivity; try congruence. apply IHn. lia. Qed.
Lemma nth_update {A} n m (f : A -> A) l : nth_error (update_nth n f l) m = if Nat.eqb n m then option_map f (nth_error l m) else nth_error l m.
Proof.
  destruct (Nat.eqb_spec n m) as [->|N]; [|now apply nth_update_other]. destruct (nth_error l m) eqn:E; [now apply nth_update_same|].
  simpl. revert l E. induction m; intros [|y l]; simpl; auto; discriminate.
Qed.
Lemma update_nth_length {A} n (f : A -> A) l : length (update_nth n f l) = length l.
Proof. revert l. induction n; intros [|y l]; simpl; auto. Qed.

(** The interval of a recurring job (line 802). *)
Definition interval_of (g b : option Z) : Z :=
  match g with Some g => if g =? 0 then match b with Some b => b | None => 0 end else g | None => match b with Some b => b | None => 0 end end.

Lemma process_ok call quotient fr single q st f st' single' b : nth_error (cs_frames st) fr = Some f ->
  process call quotient fr single q st = (st', single', Ok b) -> is_invalid q = Ok b /\
  if b then st' = st /\ single' = single
  else exists rids g job, selects st q rids g /\
    cs_heap st' = cs_heap st /\ cs_reports st' = cs_reports st /\ cs_callbacks st' = cs_callbacks st /\
    cs_requests st' = (cs_requests st ++ [mk_rr (cq_id q) (cq_specifier q) (cq_back q) fr g job])%list /\
    cs_frames st' = update_nth fr (fun _ => mk_frame (fr_rids f ++ rids) (cq_id q)) (cs_frames st) /\
    ((forall r, In r (cs_reports st) -> cr_specifier r <> cq_specifier q) /\ job = None /\ single' = single /\ cs_jobs st' = cs_jobs st /\ cs_next_job st' = cs_next_job st /\
       cs_incomplete st' = cs_incomplete st /\ cs_pending st' = cs_pending st
     \/ (exists r, In r (cs_reports st) /\ cr_specifier r = cq_specifier q) /\
        (single' = true <-> single = true \/ (rids <> [] /\ g = Some 0 /\ (cq_gran q = Some 0 \/ (1 < length rids)%nat))) /\
        ((exists d, single' = false /\ cq_back q = Some d /\ 0 < d /\ second_us <= interval_of g (cq_back q) /\ job = Some (cs_next_job st) /\
            cs_jobs st' = (cs_jobs st ++ [(cs_next_job st, Recurring (cq_id q) (cron_config (interval_of g (cq_back q)) false))])%list /\ cs_next_job st' = S (cs_next_job st) /\
            cs_incomplete st' = cs_incomplete st /\ cs_pending st' = cs_pending st)
         \/ (single' = true \/ exists d, cq_back q = Some d /\ d <= 0) /\ job = None /\
            ((exists t, cq_at q = Some t /\ cs_jobs st' = (cs_jobs st ++ [(cs_next_job st, Once fr t)])%list /\ cs_next_job st' = S (cs_next_job st) /\
                cs_incomplete st' = cs_incomplete st /\ cs_pending st' = cs_pending st)
             \/ (cq_at q = None /\ exists st1, update_report call quotient (cq_id q) st1 = (st', Ok tt) /\ cs_requests st1 = cs_requests st' /\ cs_frames st1 = cs_frames st' /\
                 cs_incomplete st1 = cs_incomplete st /\ cs_pending st1 = cs_pending st /\ cs_jobs st' = cs_jobs st /\ cs_next_job st' = cs_next_job st)))).
Proof.
  intros F. unfold process. destruct (is_invalid q) as [[|]|] eqn:I; [intros E; injection E as <- <- <-; auto| |discriminate].
  cbv zeta. rewrite F.
  set (st1 := set_frames (update_nth fr (fun f => mk_frame (fr_rids f) (cq_id q)) (cs_frames st)) st).
  change (cs_reports st1) with (cs_reports st).
  assert (F1 : forall rids, update_nth fr (fun f0 => mk_frame rids (fr_id f0)) (cs_frames st1) = update_nth fr (fun _ => mk_frame rids (cq_id q)) (cs_frames st)).
  { intros rids. unfold st1; cbn [cs_frames set_frames]. apply nth_error_ext. intros n. rewrite !nth_update. destruct (Nat.eqb fr n); [|reflexivity]. destruct (nth_error (cs_frames st) n); simpl; reflexivity. }
  destruct (find_report (cq_specifier q) (cs_reports st)) as [report|] eqn:R.
  2:{ intros E. injection E as <- <- <-. split; [reflexivity|].
      assert (NR : forall r, In r (cs_reports st) -> cr_specifier r <> cq_specifier q).
      { apply (find_none_iff _ (fun r => cr_specifier r = cq_specifier q) (scalar_eqb_P cr_specifier (cq_specifier q))). exact R. }
      exists [], (cq_gran q), None.
      split; [right; auto|]. split; [reflexivity|]. split; [reflexivity|]. split; [reflexivity|]. split; [reflexivity|]. split.
      - unfold st1; cbn [cs_frames set_frames set_requests]. rewrite app_nil_r. apply nth_error_ext. intros n. rewrite !nth_update.
        destruct (Nat.eqb_spec fr n) as [<-|]; [|reflexivity]. now rewrite F.
      - left. auto 10. }
  assert (RF : first (fun r => cr_specifier r = cq_specifier q) (cs_reports st) report).
  { apply (find_first _ _ (scalar_eqb_P cr_specifier (cq_specifier q))). exact R. }
  destruct (check_payloads st1 report (single, cq_gran q, fr_rids f) (cq_payloads q)) as [[[sg g] rs] [u|]] eqn:CP; [|discriminate]. destruct u.
  destruct (check_payloads_selected _ _ _ _ _ _ _ _ _ CP) as (rids & -> & SEL & SG). change (cs_heap st1) with (cs_heap st) in SEL.
  set (st2 := set_frames (update_nth fr (fun f0 => mk_frame (fr_rids f ++ rids) (fr_id f0)) (cs_frames st1)) st1).
  assert (F2 : cs_frames st2 = update_nth fr (fun _ => mk_frame (fr_rids f ++ rids) (cq_id q)) (cs_frames st)) by apply F1.
  assert (SS : selects st q rids g) by (left; exists report; auto).
  assert (ER : exists r, In r (cs_reports st) /\ cr_specifier r = cq_specifier q) by (exists report; now apply first_In in RF).
  assert (DONE : forall s' b', (let st := set_requests (cs_requests st2 ++ [mk_rr (cq_id q) (cq_specifier q) (cq_back q) fr g None])%list st2 in
       match cq_at q with
       | Some t => (set_jobs (cs_jobs st ++ [(cs_next_job st, Once fr t)])%list (S (cs_next_job st)) st, sg, Ok false)
       | None => let '(st, r) := update_report call quotient (cq_id q) st in (st, sg, bind r (fun _ => Ok false))
       end) = (s', single', Ok b') -> (sg = true \/ exists d, cq_back q = Some d /\ d <= 0) -> b' = false /\ single' = sg /\
     exists job, cs_heap s' = cs_heap st /\ cs_reports s' = cs_reports st /\ cs_callbacks s' = cs_callbacks st /\
    cs_requests s' = (cs_requests st ++ [mk_rr (cq_id q) (cq_specifier q) (cq_back q) fr g job])%list /\
    cs_frames s' = update_nth fr (fun _ => mk_frame (fr_rids f ++ rids) (cq_id q)) (cs_frames st) /\ job = None /\
    ((exists t, cq_at q = Some t /\ cs_jobs s' = (cs_jobs st ++ [(cs_next_job st, Once fr t)])%list /\ cs_next_job s' = S (cs_next_job st) /\
                cs_incomplete s' = cs_incomplete st /\ cs_pending s' = cs_pending st)
             \/ (cq_at q = None /\ exists st1, update_report call quotient (cq_id q) st1 = (s', Ok tt) /\ cs_requests st1 = cs_requests s' /\ cs_frames st1 = cs_frames s' /\
                 cs_incomplete st1 = cs_incomplete st /\ cs_pending st1 = cs_pending st /\ cs_jobs s' = cs_jobs st /\ cs_next_job s' = cs_next_job st))).
  { intros s' b'. cbv zeta. destruct (cq_at q) as [t|].
    - intros E. injection E as <- <- <-. intros _. split; [reflexivity|]. split; [reflexivity|]. exists None.
      split; [reflexivity|]. split; [reflexivity|]. split; [reflexivity|]. split; [reflexivity|]. split; [exact F2|]. split; [reflexivity|]. left. exists t. auto 10.
    - set (st3 := set_requests _ st2). destruct (update_report call quotient (cq_id q) st3) as [s3 [u|]] eqn:U; [|discriminate]. destruct u.
      intros E. injection E as <- <- <-. intros _. split; [reflexivity|]. split; [reflexivity|].
      pose proof (update_same call quotient (cq_id q) st3) as S3. rewrite U in S3. destruct S3 as (A1 & A2 & A3 & A4 & A5 & A6 & A7). cbn [fst] in *. exists None.
      split; [exact A1|]. split; [exact A2|]. split; [exact A3|]. split; [exact A4|]. split; [rewrite A5; exact F2|]. split; [reflexivity|]. right. split; [reflexivity|].
      exists st3. split; [exact U|]. split; [now rewrite A4|]. split; [now rewrite A5|]. split; [reflexivity|]. split; [reflexivity|]. split; [exact A6|exact A7]. }
  destruct sg.
  - intros E. destruct (DONE _ _ E (or_introl eq_refl)) as (-> & -> & job & H1 & H2 & H3 & H4 & H5 & H6 & H7). split; [reflexivity|].
    exists rids, g, job. split; [exact SS|]. split; [exact H1|]. split; [exact H2|]. split; [exact H3|]. split; [exact H4|]. split; [exact H5|].
    right. split; [exact ER|]. split; [exact SG|]. right. auto.
  - destruct (cq_back q) as [d|] eqn:B; [|discriminate]. destruct (0 <? d) eqn:D.
    + apply Z.ltb_lt in D. change (match g with Some g0 => if g0 =? 0 then d else g0 | None => d end) with (interval_of g (Some d)).
      destruct (interval_of g (Some d) <? second_us) eqn:L; [discriminate|]. apply Z.ltb_ge in L.
      intros E. injection E as <- <- <-. split; [reflexivity|].
      exists rids, g, (Some (cs_next_job st)). split; [exact SS|]. split; [reflexivity|]. split; [reflexivity|]. split; [reflexivity|]. split; [reflexivity|]. split; [exact F2|].
      right. split; [exact ER|]. split; [exact SG|]. left. exists d. auto 12.
    + apply Z.ltb_ge in D. intros E. destruct (DONE _ _ E) as (-> & -> & job & H1 & H2 & H3 & H4 & H5 & H6 & H7); [right; eauto|]. split; [reflexivity|].
      exists rids, g, job. split; [exact SS|]. split; [exact H1|]. split; [exact H2|]. split; [exact H3|]. split; [exact H4|]. split; [exact H5|].
      right. split; [exact ER|]. split; [exact SG|]. right. split; [right; eauto|auto].
Qed.

(** The requests of a message that are not marked invalid are stored in order;
    all of them share the r_ids of all. *)
Lemma process_all_ok call quotient fr qs : forall single st f st' inv inv', nth_error (cs_frames st) fr = Some f ->
  process_all call quotient fr single qs st inv = (st', Ok inv') ->
  exists ridss rs valid,
    Forall (fun q => exists b, is_invalid q = Ok b) qs /\ valid = filter (fun q => match is_invalid q with Ok b => negb b | _ => false end) qs /\
    cs_requests st' = (cs_requests st ++ rs)%list /\ length ridss = length valid /\ length rs = length valid /\
    (forall i q, nth_error valid i = Some q -> exists rids g job, nth_error ridss i = Some rids /\ selects st q rids g /\
       nth_error rs i = Some (mk_rr (cq_id q) (cq_specifier q) (cq_back q) fr g job)) /\
    (exists id, nth_error (cs_frames st') fr = Some (mk_frame (fr_rids f ++ concat ridss) id)) /\
    (forall n, n <> fr -> nth_error (cs_frames st') n = nth_error (cs_frames st) n) /\
    cs_heap st' = cs_heap st /\ cs_reports st' = cs_reports st /\ cs_callbacks st' = cs_callbacks st /\
    (inv' = true <-> inv = true \/ exists q, In q qs /\ is_invalid q = Ok true).
Proof.
  induction qs as [|q qs IH]; intros single st f st' inv inv' F; cbn [process_all].
  - intros E. injection E as <- <-. exists [], [], []. rewrite !app_nil_r. split; [constructor|]. split; [reflexivity|]. split; [reflexivity|].
    split; [reflexivity|]. split; [reflexivity|]. split; [intros [|i] q; discriminate|].
    split; [exists (fr_id f); simpl; rewrite ?app_nil_r; now destruct f|]. split; [reflexivity|]. split; [reflexivity|]. split; [reflexivity|]. split; [reflexivity|].
    split; [now left|]. intros [H|(q & [] & _)]. exact H.
  - destruct (process call quotient fr single q st) as [[s1 sg] [b|]] eqn:P; [|discriminate]. intros E.
    destruct (process_ok _ _ _ _ _ _ _ _ _ _ F P) as [I R]. destruct b.
    + destruct R as [-> ->]. destruct (IH _ _ _ _ _ _ F E) as (ridss & rs & valid & H1 & H2 & H3 & H4 & H5 & H6 & H7 & H8 & H9 & H10 & H11 & H12).
      exists ridss, rs, valid. split; [constructor; eauto|]. split; [simpl; rewrite I; exact H2|]. split; [exact H3|]. split; [exact H4|]. split; [exact H5|].
      split; [exact H6|]. split; [exact H7|]. split; [exact H8|]. split; [exact H9|]. split; [exact H10|]. split; [exact H11|].
      rewrite H12. split; [intros _; right; exists q; split; [now left|assumption]|].
      intros _. left. now rewrite orb_true_r.
    + destruct R as (rids & g & job & SEL & R1 & R2 & R3 & R4 & R5 & _).
      assert (F1 : nth_error (cs_frames s1) fr = Some (mk_frame (fr_rids f ++ rids) (cq_id q))) by (rewrite R5; now apply (nth_update_same fr (fun _ => mk_frame (fr_rids f ++ rids) (cq_id q)) (cs_frames st) f)).
      destruct (IH _ _ _ _ _ _ F1 E) as (ridss & rs & valid & H1 & H2 & H3 & H4 & H5 & H6 & H7 & H8 & H9 & H10 & H11 & H12).
      exists (rids :: ridss), (mk_rr (cq_id q) (cq_specifier q) (cq_back q) fr g job :: rs), (q :: valid).
      split; [constructor; eauto|]. split; [simpl; rewrite I; simpl; now f_equal|].
      split; [rewrite H3, R4, <- app_assoc; reflexivity|]. split; [simpl; congruence|]. split; [simpl; congruence|].
      split.
      { intros [|i] q' N; simpl in N.
        - injection N as <-. exists rids, g, job. auto.
        - destruct (H6 i q' N) as (rids' & g' & job' & N1 & N2 & N3). exists rids', g', job'. split; [exact N1|]. split; [|exact N3].
          unfold selects in *. now rewrite R1, R2 in N2. }
      split; [destruct H7 as [id H7]; exists id; rewrite H7; simpl; now rewrite <- app_assoc|].
      split; [intros n N; rewrite (H8 n N), R5; apply nth_update_other; congruence|].
      split; [congruence|]. split; [congruence|]. split; [congruence|]. rewrite H12. rewrite orb_false_r. split; [intros [H|(q' & H & Q)]; [now left|right; exists q'; split; [now right|assumption]]|].
      intros [H|(q' & [<-|H] & Q)]; [now left|congruence|right; eauto].
Qed.

(** ** update_report on one value per data point *)
Lemma sample_all_one call st specifier rids ints l : one_each call st specifier rids ints ->
  sample_all call st specifier rids None false l = ((l ++ ints)%list, Ok tt).
Proof.
  intros O. revert l. induction O as [|r i rids ints (c & t & v & G & C & ->) O IH]; intros l; cbn [sample_all]; [now rewrite app_nil_r|].
  unfold sample_one. rewrite G, C. cbn [bind series_of map]. rewrite IH, <- app_assoc. reflexivity.
Qed.

Lemma fold_min l : forall m, let t := fold_left (fun m y => if oi_dtstart y <? m then oi_dtstart y else m) l m in
  (t = m \/ exists x, In x l /\ oi_dtstart x = t) /\ t <= m /\ forall x, In x l -> t <= oi_dtstart x.
Proof.
  induction l as [|y l IH]; intros m; cbn [fold_left]; cbv zeta.
  - split; [now left|]. split; [lia|]. intros x [].
  - destruct (IH (if oi_dtstart y <? m then oi_dtstart y else m)) as (A & B & C). cbv zeta in *. set (t := fold_left _ l _) in *.
    destruct (oi_dtstart y <? m) eqn:L; [apply Z.ltb_lt in L|apply Z.ltb_ge in L].
    + split; [destruct A as [A|(x & I & E)]; right; [exists y; split; [now left|congruence]|exists x; split; [now right|assumption]]|]. split; [lia|].
      intros x [<-|I]; auto.
    + split; [destruct A as [A|(x & I & E)]; [now left|right; exists x; split; [now right|assumption]]|]. split; [lia|]. intros x [<-|I]; [lia|auto].
Qed.

Lemma total_minimum_earliest l t : total_minimum l = Some t -> earliest l t.
Proof.
  destruct l as [|x l]; [discriminate|]. cbn [total_minimum]. intros E. injection E as <-. destruct (fold_min l (oi_dtstart x)) as (A & B & C). cbv zeta in *.
  split.
  - destruct A as [A|(y & I & E)]; [exists x; split; [now left|congruence]|exists y; split; [now right|assumption]].
  - intros y [<-|I]; auto.
Qed.
Lemma total_minimum_some l : l <> [] -> exists t, total_minimum l = Some t.
Proof. destruct l; [congruence|]. simpl. eauto. Qed.

(** ** Runs *)
Section Run.
Context (quotient : Z -> Z -> Z) (id : scalar) (request : rr) (report : crep) (b g : Z).

Definition asks (st : cstate) : Prop :=
  first (fun r => rr_id r = id) (cs_requests st) request /\ first (fun r => cr_specifier r = rr_specifier request) (cs_reports st) report /\
  cr_mode report = "incremental" /\ rr_back request = Some b /\ rr_gran request = Some g.

Lemma asks_same st st' : same_but_outgoing st st' -> asks st -> asks st'.
Proof. intros (A1 & A2 & A3 & A4 & A5 & A6 & A7). unfold asks. now rewrite A2, A4. Qed.
Lemma rids_same st st' : same_but_outgoing st st' -> rids_of st' request = rids_of st request.
Proof. intros (A1 & A2 & A3 & A4 & A5 & A6 & A7). unfold rids_of. now rewrite A5. Qed.
Lemma one_each_same call st st' s r i : same_but_outgoing st st' -> one_each call st s r i -> one_each call st' s r i.
Proof. intros (A1 & A2 & A3 & A4 & A5 & A6 & A7). unfold one_each. now rewrite A3. Qed.

Lemma asks_find st : asks st -> find_request id (cs_requests st) = Some request /\ find_report (rr_specifier request) (cs_reports st) = Some report.
Proof.
  intros (A1 & A2 & _). split.
  - apply (find_first _ _ (scalar_eqb_P rr_id id)). exact A1.
  - apply (find_first _ _ (scalar_eqb_P cr_specifier (rr_specifier request))). exact A2.
Qed.

(** The report in progress holds exactly the samples [rest]. *)
Definition progress (st : cstate) (rest : list (list oint)) : Prop :=
  match rest with
  | [] => get scalar_eqb id (cs_incomplete st) = None
  | _ => exists og, get scalar_eqb id (cs_incomplete st) = Some og /\ reports_exactly id report (concat rest) og
  end.

Definition base (st : cstate) : outgoing :=
  match get scalar_eqb id (cs_incomplete st) with
  | Some og => og
  | None => mk_outgoing id (cr_specifier report) (outgoing_name (cr_name report)) [] None
  end.

Lemma base_progress st rest : progress st rest ->
  og_request (base st) = id /\ og_specifier (base st) = cr_specifier report /\ stripped (cr_name report) (og_name (base st)) /\ og_intervals (base st) = concat rest.
Proof.
  unfold progress, base. destruct rest as [|v rest].
  - intros ->. cbn [og_request og_specifier og_name og_intervals concat]. auto using outgoing_stripped.
  - intros (og & -> & R1 & R2 & R3 & R4 & _). auto.
Qed.

Lemma grown st rest ints l dt : progress st rest -> l = (concat rest ++ ints)%list -> l <> [] ->
  dt = match total_minimum l with Some t => Some t | None => og_dtstart (base st) end ->
  reports_exactly id report (concat (rest ++ [ints])) (mk_outgoing (og_request (base st)) (og_specifier (base st)) (og_name (base st)) l dt).
Proof.
  intros P EL NL ->. destruct (base_progress _ _ P) as (B1 & B2 & B3 & B4).
  assert (CC : concat (rest ++ [ints]) = l) by (rewrite concat_app; simpl; rewrite app_nil_r; congruence).
  destruct (total_minimum_some l NL) as [t T].
  split; [exact B1|]. split; [exact B2|]. split; [exact B3|]. split; [symmetry; exact CC|]. exists t. simpl. rewrite T. split; [reflexivity|].
  rewrite CC. now apply total_minimum_earliest.
Qed.

Lemma in_group (vs : list (list oint)) n : Forall (fun v => length v = n) vs -> length (concat vs) = (length vs * n)%nat.
Proof. intros F. induction F as [|v vs E F IH]; [reflexivity|]. cbn [concat length]. rewrite app_length. lia. Qed.

(** One sampling of the request with report back duration longer than the
    granularity. *)
Lemma step call st rest ints k : asks st -> coherent st -> 0 < g -> g < b -> quotient b g = Z.of_nat k -> (2 <= k)%nat -> rids_of st request <> [] ->
  progress st rest -> (length rest < k)%nat -> Forall (fun v => length v = length (rids_of st request)) rest ->
  one_each call st (rr_specifier request) (rids_of st request) ints ->
  exists st', update_report call quotient id st = (st', Ok tt) /\
    ((length (rest ++ [ints]) < k)%nat /\ cs_pending st' = cs_pending st /\ progress st' (rest ++ [ints])
     \/ length (rest ++ [ints]) = k /\ progress st' [] /\ exists og, cs_pending st' = (cs_pending st ++ [og])%list /\ reports_exactly id report (concat (rest ++ [ints])) og).
Proof.
  intros A C G GB Q K R P LR FR O. destruct (asks_find _ A) as [F1 F2]. destruct A as (_ & _ & M & B & GR).
  assert (LI : length ints = length (rids_of st request)) by (symmetry; eapply Forall2_len; exact O).
  unfold update_report. rewrite F1, F2. cbv zeta. change (match get scalar_eqb id (cs_incomplete st) with Some og => og | None => _ end) with (base st).
  destruct (base_progress _ _ P) as (B1 & B2 & B3 & B4).
  assert (CO : collect call st request report (base st) = ((concat rest ++ ints)%list, Ok tt)).
  { unfold collect. rewrite M. cbn [String.eqb Ascii.eqb Bool.eqb]. rewrite B. rewrite B4.
    assert (D : (match b with 0 => true | _ => false end) = false) by (destruct b; [lia|reflexivity|lia]).
    rewrite D, !andb_false_r. now apply sample_all_one. }
  rewrite CO. set (l := (concat rest ++ ints)%list). unfold back_of. rewrite M. change (("incremental" =? "incremental")%string) with true. change ("incremental" =? "full")%string with false. cbn [Bool.eqb].
  cbv iota. rewrite B, GR. assert (T : (0 <? g) && (g <? b) = true) by (apply andb_true_iff; split; now apply Z.ltb_lt). rewrite T.
  set (og' := mk_outgoing _ _ _ l _).
  assert (LL : length l = (length (rest ++ [ints]) * length (rids_of st request))%nat).
  { unfold l. rewrite app_length, (in_group rest _ FR), LI, app_length. simpl. lia. }
  assert (NL : l <> []).
  { intros E. rewrite E in LL. rewrite app_length in LL. simpl in LL. destruct (rids_of st request); [congruence|]. simpl in LL. lia. }
  assert (GW : reports_exactly id report (concat (rest ++ [ints])) og') by (apply grown; auto).
  rewrite Q. destruct (Z.of_nat (length l) =? Z.of_nat (length (rids_of st request)) * Z.of_nat k) eqn:E.
  - apply Z.eqb_eq in E. assert (KK : length (rest ++ [ints]) = k).
    { rewrite LL in E. destruct (rids_of st request) as [|r0 rs]; [congruence|]. rewrite <- Nat2Z.inj_mul in E. apply Nat2Z.inj in E. simpl length in E. nia. }
    destruct rest as [|v rest]; [simpl in KK; lia|]. destruct P as (og & P & _). rewrite P.
    eexists. split; [reflexivity|]. right. split; [exact KK|]. split.
    + simpl. apply (get_del_same scalar_eqb scalar_eqb_eq). apply (nodup_set scalar_eqb scalar_eqb_eq). apply C.
    + exists og'. split; [reflexivity|exact GW].
  - apply Z.eqb_neq in E. eexists. split; [reflexivity|]. left. split.
    + rewrite app_length. simpl. assert (length rest + 1 <> k)%nat; [|lia]. intros KK. apply E. rewrite LL, app_length. simpl. rewrite KK. lia.
    + split; [reflexivity|]. unfold progress. destruct (rest ++ [ints])%list as [|v0 r0] eqn:Z0; [destruct rest; discriminate|].
      exists og'. split; [simpl; apply (get_set_same scalar_eqb scalar_eqb_eq)|exact GW].
Qed.

Lemma run_app evs e st : run quotient (evs ++ [e]) st = let '(i, call) := e in fst (update_report call quotient i (run quotient evs st)).
Proof. unfold run. rewrite fold_left_app. reflexivity. Qed.

Lemma run_same evs : forall st, same_but_outgoing st (run quotient evs st).
Proof.
  induction evs as [|[i call] evs IH] using rev_ind; intros st; [apply same_refl|]. rewrite run_app. eapply same_trans; [apply IH|apply update_same].
Qed.
Lemma run_coherent evs : forall st, coherent st -> coherent (run quotient evs st).
Proof. induction evs as [|[i call] evs IH] using rev_ind; intros st C; [exact C|]. rewrite run_app. apply update_coherent. auto. Qed.

Lemma of_request_app i evs e : of_request i (evs ++ [e]) = (of_request i evs ++ if scalar_eqb (fst e) i then [snd e] else [])%list.
Proof. unfold of_request. rewrite filter_app, map_app. cbn [filter map]. now destruct (scalar_eqb (fst e) i). Qed.

Lemma queued_app i st sent st' : cs_pending st' = (cs_pending st ++ sent)%list ->
  queued_for i st' = (queued_for i st ++ filter (fun og => scalar_eqb (og_request og) i) sent)%list.
Proof. unfold queued_for. intros ->. apply filter_app. Qed.

Lemma progress_other st st' rest : get scalar_eqb id (cs_incomplete st') = get scalar_eqb id (cs_incomplete st) -> progress st rest -> progress st' rest.
Proof. unfold progress. intros ->. auto. Qed.

Lemma Forall2_snoc_inv {A B} (P : A -> B -> Prop) l a r : Forall2 P (l ++ [a]) r -> exists r' x, r = (r' ++ [x])%list /\ Forall2 P l r' /\ P a x.
Proof. intros F. apply Forall2_app_inv_l in F as (r1 & r2 & F1 & F2 & ->). inversion F2; subst. inversion H3; subst. eauto. Qed.

Lemma run_batches k st : asks st -> coherent st -> 0 < g -> g < b -> quotient b g = Z.of_nat k -> (2 <= k)%nat -> rids_of st request <> [] ->
  get scalar_eqb id (cs_incomplete st) = None ->
  forall evs vs, Forall2 (fun call ints => one_each call st (rr_specifier request) (rids_of st request) ints) (of_request id evs) vs ->
  exists reports rest, queued_for id (run quotient evs st) = (queued_for id st ++ reports)%list /\ batches id report k vs reports rest /\ progress (run quotient evs st) rest.
Proof.
  intros A C G GB Q K R P0 evs. induction evs as [|e evs IH] using rev_ind; intros vs F.
  - inversion F; subst. exists [], []. rewrite app_nil_r. split; [reflexivity|]. split; [|exact P0]. exists []. split; [reflexivity|]. split; [simpl; lia|constructor].
  - rewrite of_request_app in F. destruct e as [i call]. cbn [fst snd] in F. rewrite run_app.
    pose proof (run_same evs st) as SM. pose proof (run_coherent evs st C) as CM. set (st1 := run quotient evs st) in *.
    destruct (scalar_eqb i id) eqn:EI.
    + apply scalar_eqb_eq in EI. subst i. apply Forall2_snoc_inv in F as (vs' & ints & -> & F & O).
      destruct (IH _ F) as (reports & rest & H1 & (groups & H2 & H3 & H4) & H5).
      assert (FR : Forall (fun v => length v = length (rids_of st1 request)) rest).
      { apply Forall_forall. intros v I. assert (I' : In v vs') by (rewrite H2; apply in_or_app; now right).
        clear - F I' SM. rewrite (rids_same _ _ SM). induction F as [|c0 v0 cs0 vs0 O0 F0 IHF]; [destruct I'|]. destruct I' as [<-|I']; [|auto]. symmetry. eapply Forall2_len. exact O0. }
      destruct (step call st1 rest ints k) as (st' & U & S); auto.
      { now apply (asks_same _ _ SM). } { now rewrite (rids_same _ _ SM). } { rewrite (rids_same _ _ SM). now apply (one_each_same _ _ _ _ _ _ SM). }
      rewrite U. cbn [fst]. destruct S as [(S1 & S2 & S3)|(S1 & S2 & og & S3 & S4)].
      * exists reports, (rest ++ [ints])%list. split; [unfold queued_for in *; now rewrite S2|]. split; [|exact S3]. exists groups. split; [rewrite H2, <- app_assoc; reflexivity|]. auto.
      * exists (reports ++ [og])%list, []. split.
        { rewrite (queued_app id _ _ _ S3), H1. cbn [filter]. destruct S4 as (E & _). rewrite E, scalar_eqb_refl, app_assoc. reflexivity. }
        split; [|exact S2]. exists (groups ++ [rest ++ [ints]])%list. split; [rewrite concat_app; simpl; rewrite !app_nil_r, H2, <- app_assoc; reflexivity|].
        split; [simpl; lia|]. apply Forall2_app; [exact H4|]. constructor; [|constructor]. auto.
    + apply scalar_eqb_neq in EI. rewrite app_nil_r in F. destruct (IH _ F) as (reports & rest & H1 & H2 & H3).
      exists reports, rest. destruct (update_coherent call quotient i st1 CM) as (_ & sent & S1 & S2). split.
      * rewrite (queued_app id _ _ _ S1), H1. rewrite filter_none; [now rewrite app_nil_r|]. intros og I. apply S2 in I. apply scalar_eqb_neq. congruence.
      * split; [exact H2|]. eapply progress_other; [|exact H3]. apply update_other; [congruence|apply CM].
Qed.

(** Without a longer report back duration every sampling is a report. *)
Lemma step_direct call st ints : asks st -> coherent st -> ~ (0 < g /\ g < b) -> b <> 0 -> rids_of st request <> [] -> progress st [] ->
  one_each call st (rr_specifier request) (rids_of st request) ints ->
  exists st' og, update_report call quotient id st = (st', Ok tt) /\ progress st' [] /\ cs_pending st' = (cs_pending st ++ [og])%list /\ reports_exactly id report ints og.
Proof.
  intros A C NG NB R P O. destruct (asks_find _ A) as [F1 F2]. destruct A as (_ & _ & M & B & GR).
  unfold update_report. rewrite F1, F2. cbv zeta. change (match get scalar_eqb id (cs_incomplete st) with Some og => og | None => _ end) with (base st).
  destruct (base_progress _ _ P) as (B1 & B2 & B3 & B4).
  assert (CO : collect call st request report (base st) = (ints, Ok tt)).
  { unfold collect. rewrite M. cbn [String.eqb Ascii.eqb Bool.eqb]. rewrite B, B4.
    assert (D : (match b with 0 => true | _ => false end) = false) by (destruct b; [lia|reflexivity|reflexivity]).
    rewrite D, !andb_false_r. now apply sample_all_one with (l := concat []). }
  rewrite CO. unfold back_of. rewrite M. change (("incremental" =? "incremental")%string) with true. change ("incremental" =? "full")%string with false.
  cbv iota. rewrite B, GR. assert (T : (0 <? g) && (g <? b) = false).
  { apply not_true_iff_false. intros H. apply andb_true_iff in H as [H1 H2]. apply Z.ltb_lt in H1, H2. tauto. }
  rewrite T. rewrite P. eexists _, _. split; [reflexivity|]. split; [exact P|]. split; [reflexivity|].
  replace ints with (concat ([] ++ [ints])) at 1 by (simpl; apply app_nil_r). apply grown; auto.
  intros ->. inversion O. congruence.
Qed.

Lemma run_direct st : asks st -> coherent st -> ~ (0 < g /\ g < b) -> b <> 0 -> rids_of st request <> [] ->
  get scalar_eqb id (cs_incomplete st) = None ->
  forall evs vs, Forall2 (fun call ints => one_each call st (rr_specifier request) (rids_of st request) ints) (of_request id evs) vs ->
  exists reports, queued_for id (run quotient evs st) = (queued_for id st ++ reports)%list /\ Forall2 (reports_exactly id report) vs reports /\ progress (run quotient evs st) [].
Proof.
  intros A C NG NB R P0 evs. induction evs as [|e evs IH] using rev_ind; intros vs F.
  - inversion F; subst. exists []. rewrite app_nil_r. split; [reflexivity|]. split; [constructor|exact P0].
  - rewrite of_request_app in F. destruct e as [i call]. cbn [fst snd] in F. rewrite run_app.
    pose proof (run_same evs st) as SM. pose proof (run_coherent evs st C) as CM. set (st1 := run quotient evs st) in *.
    destruct (scalar_eqb i id) eqn:EI.
    + apply scalar_eqb_eq in EI. subst i. apply Forall2_snoc_inv in F as (vs' & ints & -> & F & O).
      destruct (IH _ F) as (reports & H1 & H2 & H3).
      destruct (step_direct call st1 ints) as (st' & og & U & S1 & S2 & S3); auto.
      { now apply (asks_same _ _ SM). } { now rewrite (rids_same _ _ SM). } { rewrite (rids_same _ _ SM). now apply (one_each_same _ _ _ _ _ _ SM). }
      rewrite U. cbn [fst]. exists (reports ++ [og])%list. split.
      * rewrite (queued_app id _ _ _ S2), H1. cbn [filter]. destruct S3 as (E & _). rewrite E, scalar_eqb_refl, app_assoc. reflexivity.
      * split; [apply Forall2_app; [exact H2|constructor; [exact S3|constructor]]|exact S1].
    + apply scalar_eqb_neq in EI. rewrite app_nil_r in F. destruct (IH _ F) as (reports & H1 & H2 & H3).
      exists reports. destruct (update_coherent call quotient i st1 CM) as (_ & sent & S1 & S2). split.
      * rewrite (queued_app id _ _ _ S1), H1. rewrite filter_none; [now rewrite app_nil_r|]. intros og I. apply S2 in I. apply scalar_eqb_neq. congruence.
      * split; [exact H2|]. eapply progress_other; [|exact H3]. apply update_other; [congruence|apply CM].
Qed.
End Run.

(** ** add_report *)
Lemma ckey_eqb_eq a b : ckey_eqb a b = true <-> a = b.
Proof.
  destruct a, b. unfold ckey_eqb. simpl. rewrite andb_true_iff, !scalar_eqb_eq. split; [intros [-> ->]; reflexivity|]. intros E. now injection E.
Qed.

Lemma index_of_member_some s l : forall i a, index_of_member s l i = Some a -> (i <= a)%nat /\ exists b, nth_error l (a - i) = Some b /\ fst (fst (fst (fst b))) = s /\
  forall j c, (j < a - i)%nat -> nth_error l j = Some c -> fst (fst (fst (fst c))) <> s.
Proof.
  induction l as [|[[[[m x1] x2] x3] x4] l IH]; intros i a; cbn [index_of_member]; [discriminate|].
  destruct (m =? s)%string eqn:E.
  - apply String.eqb_eq in E. intros H. injection H as <-. split; [lia|]. replace (i - i)%nat with O by lia. eexists. split; [reflexivity|]. split; [exact E|]. intros; lia.
  - apply String.eqb_neq in E. intros H. destruct (IH _ _ H) as (L & b & N & B & F). split; [lia|]. replace (a - i)%nat with (S (a - S i)) by lia.
    exists b. split; [exact N|]. split; [exact B|]. intros [|j] c J K; simpl in K; [injection K as <-; exact E|]. apply (F j); [lia|exact K].
Qed.
Lemma index_of_member_none s l : forall i, index_of_member s l i = None <-> forall b, In b l -> fst (fst (fst (fst b))) <> s.
Proof.
  induction l as [|[[[[m x1] x2] x3] x4] l IH]; intros i; cbn [index_of_member]; [split; [intros _ b []|reflexivity]|].
  destruct (m =? s)%string eqn:E.
  - apply String.eqb_eq in E. split; [discriminate|]. intros H. elim (H _ (or_introl eq_refl)). exact E.
  - apply String.eqb_neq in E. rewrite IH. split; [intros H b [<-|I]; [exact E|auto]|]. intros H b I. apply H. now right.
Qed.

Lemma find_index_some {A} (f : A -> bool) l i : find_index f l = Some i -> exists x, nth_error l i = Some x /\ f x = true /\ forall j y, (j < i)%nat -> nth_error l j = Some y -> f y = false.
Proof.
  revert i. induction l as [|x l IH]; intros i; cbn [find_index]; [discriminate|]. destruct (f x) eqn:E.
  - intros H. injection H as <-. exists x. split; [reflexivity|]. split; [exact E|]. intros; lia.
  - destruct (find_index f l) as [k|]; [|discriminate]. intros H. injection H as <-. destruct (IH k eq_refl) as (y & N & F & L).
    exists y. split; [exact N|]. split; [exact F|]. intros [|j] z J K; simpl in K; [congruence|]. apply (L j); [lia|exact K].
Qed.
Lemma find_index_none {A} (f : A -> bool) l : find_index f l = None -> forall x, In x l -> f x = false.
Proof.
  induction l as [|x l IH]; cbn [find_index]; [intros _ y []|]. destruct (f x) eqn:E; [discriminate|]. destruct (find_index f l); [discriminate|].
  intros _ y [<-|I]; auto.
Qed.

Lemma finds_iff q r : finds q r = true <-> extends q r.
Proof.
  unfold finds, extends. rewrite andb_true_iff, String.eqb_eq. destruct (q_specifier q) as [s|]; simpl.
  - destruct s as [|c s].
    + split; [intros [E _]; split; [exact E|]; intros s H N; congruence|]. intros [E _]. auto.
    + cbn [nonempty]. rewrite scalar_eqb_eq. split; [intros [E F]; split; [exact E|]; intros x H _; congruence|]. intros [E F]. split; [exact E|]. apply F; [reflexivity|discriminate].
  - split; [intros [E _]; split; [exact E|discriminate]|]. intros [E _]. auto.
Qed.

Lemma nonempty_generated x gen y : match nonempty x with Some s => s | None => gen end = y <-> or_generated x gen y.
Proof.
  unfold or_generated. destruct x as [[|c s]|]; cbn [nonempty].
  - split; [intros <-; right; auto|]. intros [(s & E & N & _)|(_ & ->)]; [congruence|reflexivity].
  - split; [intros <-; left; eexists; split; [reflexivity|]; split; [discriminate|reflexivity]|]. intros [(s' & E & N & ->)|([E|E] & _)]; [congruence|discriminate|discriminate].
  - split; [intros <-; right; auto|]. intros [(s & E & N & _)|(_ & ->)]; [congruence|reflexivity].
Qed.

Definition item_of (q : areq) (st : cstate) : result (list mdict * option nat) :=
  bind (item_base q (cs_heap st)) (fun '(heap, item) => bind (apply_scale q heap item) (fun heap => Ok (heap, item))).

(** The measurement object used, and the measurements afterwards. *)
Lemma item_of_ok q st heap item : item_of q st = Ok (heap, item) ->
  (q_name q = "TELEMETRY_STATUS" /\ item = None /\ heap = cs_heap st) \/
  (q_name q <> "TELEMETRY_STATUS" /\ exists a m, item = Some a /\ measures (q_measurement q) (q_unit q) (q_scale q) (cs_heap st) a m /\ md_scale m <> None /\
    nth_error heap a = Some (set_md_scale (q_scale q) m) /\ forall j, j <> a -> nth_error heap j = nth_error (cs_heap st) j).
Proof.
  unfold item_of, item_base. destruct (q_name q =? "TELEMETRY_STATUS")%string eqn:T.
  - apply String.eqb_eq in T. cbn [bind apply_scale]. intros E. injection E as <- <-. left. auto.
  - apply String.eqb_neq in T. intros E. right. split; [exact T|].
    destruct (q_measurement q) as [|a|m|s]; cbn [bind] in E; [discriminate| | |].
    + unfold apply_scale in E. destruct (nth_error (cs_heap st) a) as [m|] eqn:N; [|discriminate]. destruct (md_scale m) eqn:S; [|discriminate]. cbn [bind] in E. injection E as <- <-.
      exists a, m. split; [reflexivity|]. split; [split; auto|]. split; [congruence|]. split; [now apply nth_update_same|]. intros j J. apply nth_update_other. congruence.
    + destruct (validate_report_measurement_dict m); discriminate.
    + destruct (index_of_member (upper s) measurements 0) as [a|] eqn:I; cbn [bind] in E.
      * apply index_of_member_some in I as (_ & b & N & B & F). rewrite Nat.sub_0_r in N, F.
        unfold apply_scale in E. destruct (nth_error (cs_heap st) a) as [m|] eqn:NH; [|discriminate]. destruct (md_scale m) eqn:S; [|discriminate]. cbn [bind] in E. injection E as <- <-.
        exists a, m. split; [reflexivity|]. split; [left; exists b; auto|]. split; [congruence|]. split; [now apply nth_update_same|]. intros j J. apply nth_update_other. congruence.
      * rewrite index_of_member_none in I. unfold apply_scale in E. set (m := custom_measurement s (q_unit q) (q_scale q)) in *.
        assert (NH : nth_error (cs_heap st ++ [m]) (length (cs_heap st)) = Some m) by (rewrite nth_error_app2, Nat.sub_diag by lia; reflexivity). rewrite NH in E.
        change (md_scale m) with (q_scale q) in E. destruct (q_scale q) as [sc|] eqn:S; [|discriminate]. cbn [bind] in E. injection E as <- <-.
        exists (length (cs_heap st)), m. split; [reflexivity|]. split; [right; repeat (split; [assumption || reflexivity|]); reflexivity|]. split; [discriminate|].
        split; [now apply nth_update_same|].
        intros j J. rewrite nth_update_other by congruence. destruct (Nat.lt_ge_cases j (length (cs_heap st))) as [L|L]; [now rewrite nth_error_app1|].
        rewrite nth_error_app2 by lia. destruct (j - length (cs_heap st))%nat as [|k] eqn:D; [lia|].
        transitivity (@None mdict); [now destruct k|]. symmetry. apply nth_error_None. lia.
Qed.

Lemma item_of_iff q st : q_scale q <> None -> ((exists x, item_of q st = Ok x) <->
  q_name q = "TELEMETRY_STATUS" \/ q_name q <> "TELEMETRY_STATUS" /\ exists a m, measures (q_measurement q) (q_unit q) (q_scale q) (cs_heap st) a m /\ md_scale m <> None).
Proof.
  intros SC. split.
  - intros [[heap item] E]. destruct (item_of_ok _ _ _ _ E) as [(A & _)|(A & a & m & _ & B & C & _)]; [now left|right; eauto].
  - unfold item_of, item_base. intros [T|(T & a & m & M & S)].
    + rewrite T. simpl. eauto.
    + apply String.eqb_neq in T. rewrite T. destruct (q_measurement q) as [|a'|m'|s]; cbn [measures] in M; try contradiction.
      * destruct M as [-> M]. cbn [bind apply_scale]. rewrite M. destruct (md_scale m); [|congruence]. simpl. eauto.
      * destruct (index_of_member (upper s) measurements 0) as [a'|] eqn:I.
        -- destruct M as [(b & N & B & F & H)|(N & _)].
           ++ apply index_of_member_some in I as (_ & b' & N' & B' & F'). rewrite Nat.sub_0_r in N', F'.
              assert (a' = a). { destruct (Nat.lt_trichotomy a a') as [L|[->|L]]; [elim (F' _ _ L N B)|reflexivity|elim (F _ _ L N' B')]. }
              subst a'. cbn [bind apply_scale]. rewrite H. destruct (md_scale m); [|congruence]. simpl. eauto.
           ++ apply index_of_member_some in I as (_ & b' & N' & B' & F'). apply nth_error_In in N'. elim (N _ N' B').
        -- cbn [bind apply_scale]. rewrite nth_error_app2, Nat.sub_diag by lia. cbn [nth_error custom_measurement md_scale]. destruct (q_scale q); [|congruence]. simpl. eauto.
Qed.

Lemma inb_In x l : inb x l = true <-> In x l.
Proof. unfold inb. rewrite existsb_exists. split; [intros (y & I & E); apply String.eqb_eq in E; now subst|]. intros I. exists x. now rewrite String.eqb_refl. Qed.

Lemma named_iff x l : negb (inb x l) && negb (startswith "x-" x) = false <-> In x l \/ exists r, x = ("x-" ++ r)%string.
Proof. rewrite <- inb_In, <- startswith_spec, <- negb_orb, negb_false_iff, orb_true_iff. reflexivity. Qed.

Lemma add_report_accepts q ns nr st : (exists x, snd (add_report q ns nr st) = Ok x) <-> accepted q st.
Proof.
  unfold accepted. rewrite <- (named_iff (q_name q)), <- (named_iff (q_reading q)), <- (named_iff (q_type q)). unfold add_report.
  destruct (negb (inb (q_name q) REPORT_NAME_values) && negb (startswith "x-" (q_name q))); [split; [intros [x E]; discriminate|intros (H & _); discriminate]|].
  destruct (negb (inb (q_reading q) READING_TYPE_values) && negb (startswith "x-" (q_reading q))); [split; [intros [x E]; discriminate|intros (_ & H & _); discriminate]|].
  destruct (negb (inb (q_type q) REPORT_TYPE_values) && negb (startswith "x-" (q_type q))); [split; [intros [x E]; discriminate|intros (_ & _ & H & _); discriminate]|].
  destruct (q_scale q) as [sc|] eqn:SC; [|split; [intros [x E]; discriminate|intros (_ & _ & _ & (s & H & _) & _); discriminate]].
  destruct (inb sc SI_SCALE_CODE_values) eqn:SI; cbn [negb].
  2:{ split; [intros [x E]; discriminate|]. intros (_ & _ & _ & (s & H & I) & _). injection H as <-. apply inb_In in I. congruence. }
  assert (SI' : exists s, Some sc = Some s /\ In s SI_SCALE_CODE_values) by (exists sc; split; [reflexivity|now apply inb_In]).
  rewrite <- SC in *. pose proof (item_of_iff q st) as IT. rewrite SC in IT. specialize (IT ltac:(discriminate)). rewrite <- SC in IT.
  assert (MO : (q_mode q = "incremental" \/ q_mode q = "full" /\ q_accepts q = true) <->
               inb (q_mode q) ["incremental"; "full"] = true /\ (q_mode q =? "full")%string && negb (q_accepts q) = false).
  { rewrite inb_In. simpl. split.
    - intros [->|[-> ->]]; simpl; auto.
    - intros [[H|[H|[]]] F]; [left; congruence|right]. rewrite <- H in *. simpl in F. apply negb_false_iff in F. auto. }
  destruct (inb (q_mode q) ["incremental"; "full"]); cbn [negb]; [|split; [intros [x E]; discriminate|intros (_ & _ & _ & _ & H & _); apply MO in H; destruct H; discriminate]].
  destruct ((q_mode q =? "full")%string && negb (q_accepts q)); [split; [intros [x E]; discriminate|intros (_ & _ & _ & _ & H & _); apply MO in H; destruct H; discriminate]|].
  fold (item_of q st).
  destruct (item_of q st) as [[heap item]|e] eqn:I.
  - assert (II : q_name q = "TELEMETRY_STATUS" /\ item = None \/ q_name q <> "TELEMETRY_STATUS" /\ (exists a, item = Some a) /\ exists a m, measures (q_measurement q) (q_unit q) (q_scale q) (cs_heap st) a m /\ md_scale m <> None).
    { destruct (item_of_ok _ _ _ _ I) as [(A & B & _)|(A & a & m & B & C & D & _)]; [now left|right; eauto 8]. }
    assert (Y : forall P : Prop, P -> (exists x, snd (let '(specifier, reports, i) :=
          match find_index (finds q) (cs_reports st) with
          | Some i => (q_specifier q, cs_reports st, i)
          | None => (Some (match nonempty (q_specifier q) with Some s => s | None => ns end),
                     (cs_reports st ++ [mk_crep (q_name q) (SStr (match nonempty (q_specifier q) with Some s => s | None => ns end)) (q_mode q) []])%list, length (cs_reports st))
          end in
        let r_id := match nonempty (q_rid q) with Some r => r | None => nr end in
        let d := mk_cdesc (SStr r_id) item (fst (rate_of (q_rate q))) (snd (rate_of (q_rate q))) (q_resource q) (q_reading q) (q_type q) in
        let key := (match nth_error reports i with Some r => cr_specifier r | None => SNone end, SStr r_id) in
        (set_callbacks (set ckey_eqb key (q_callback q) (cs_callbacks st)) (set_reports (update_nth i (add_desc d) reports) (set_heap heap st)),
         Ok (specifier, r_id))) = Ok x) <-> P).
    { intros P p. split; [auto|intros _]. destruct (find_index (finds q) (cs_reports st)); simpl; eauto. }
    destruct item as [a|].
    + apply Y. destruct II as [[_ II]|(A & _ & B)]; [discriminate|]. do 3 (split; [reflexivity|]). split; [exact SI'|]. split; [apply MO; auto|]. right. auto.
    + destruct II as [[A _]|(_ & [a II] & _)]; [|discriminate]. destruct (q_unit q) as [u|] eqn:U.
      * split; [intros [x E]; discriminate|]. intros (_ & _ & _ & _ & _ & [[_ H]|[H _]]); [discriminate|contradiction].
      * apply Y. do 3 (split; [reflexivity|]). split; [exact SI'|]. split; [apply MO; auto|]. left. auto.
  - split; [intros [x E]; discriminate|]. intros (_ & _ & _ & _ & _ & H). exfalso. destruct IT as [_ IT]. destruct IT as [x IT]; [|discriminate].
    destruct H as [[H _]|H]; [now left|now right].
Qed.

Lemma add_report_refuses q ns nr st e : snd (add_report q ns nr st) = Raise e -> fst (add_report q ns nr st) = st.
Proof.
  unfold add_report.
  repeat match goal with |- context [if ?c then (st, Raise _) else _] => destruct c; [reflexivity|] end.
  fold (item_of q st). destruct (item_of q st) as [[heap item]|]; [|reflexivity].
  destruct item, (q_unit q); try reflexivity; destruct (find_index (finds q) (cs_reports st)); discriminate.
Qed.

Lemma add_report_ok q ns nr st st' s r : add_report q ns nr st = (st', Ok (s, r)) ->
  or_generated (q_rid q) nr r /\
  exists i rep d,
    nth_error (cs_reports st') i = Some (add_desc d rep) /\ (forall j, j <> i -> nth_error (cs_reports st') j = nth_error (cs_reports st) j) /\
    ((nth_error (cs_reports st) i = Some rep /\ extends q rep /\ (forall j x, (j < i)%nat -> nth_error (cs_reports st) j = Some x -> ~ extends q x) /\ s = q_specifier q) \/
     (i = length (cs_reports st) /\ (forall x, In x (cs_reports st) -> ~ extends q x) /\
      exists s', s = Some s' /\ or_generated (q_specifier q) ns s' /\ rep = mk_crep (q_name q) (SStr s') (q_mode q) [])) /\
    cd_rid d = SStr r /\ rated (q_rate q) (cd_lo d) (cd_hi d) /\ cd_resource d = q_resource q /\ cd_reading d = q_reading q /\ cd_type d = q_type q /\
    ((q_name q = "TELEMETRY_STATUS" /\ cd_meas d = None /\ cs_heap st' = cs_heap st) \/
     (q_name q <> "TELEMETRY_STATUS" /\ exists a m, cd_meas d = Some a /\ measures (q_measurement q) (q_unit q) (q_scale q) (cs_heap st) a m /\
       nth_error (cs_heap st') a = Some (set_md_scale (q_scale q) m) /\ forall j, j <> a -> nth_error (cs_heap st') j = nth_error (cs_heap st) j)) /\
    get ckey_eqb (cr_specifier rep, SStr r) (cs_callbacks st') = Some (q_callback q) /\
    (forall key, key <> (cr_specifier rep, SStr r) -> get ckey_eqb key (cs_callbacks st') = get ckey_eqb key (cs_callbacks st)).
Proof.
  unfold add_report.
  repeat match goal with |- context [if ?c then (st, Raise _) else _] => destruct c; [intros E; discriminate|] end.
  fold (item_of q st). destruct (item_of q st) as [[heap item]|] eqn:I; [|intros E; discriminate].
  assert (HI : (q_name q = "TELEMETRY_STATUS" /\ item = None /\ heap = cs_heap st) \/
     (q_name q <> "TELEMETRY_STATUS" /\ exists a m, item = Some a /\ measures (q_measurement q) (q_unit q) (q_scale q) (cs_heap st) a m /\
       nth_error heap a = Some (set_md_scale (q_scale q) m) /\ forall j, j <> a -> nth_error heap j = nth_error (cs_heap st) j)).
  { destruct (item_of_ok _ _ _ _ I) as [H|(A & a & m & B & C & D & E & F)]; [now left|right; eauto 10]. }
  intros E.
  assert (E' : (let '(specifier, reports, i) :=
          match find_index (finds q) (cs_reports st) with
          | Some i => (q_specifier q, cs_reports st, i)
          | None => (Some (match nonempty (q_specifier q) with Some s => s | None => ns end),
                     (cs_reports st ++ [mk_crep (q_name q) (SStr (match nonempty (q_specifier q) with Some s => s | None => ns end)) (q_mode q) []])%list, length (cs_reports st))
          end in
        let r_id := match nonempty (q_rid q) with Some r => r | None => nr end in
        let d := mk_cdesc (SStr r_id) item (fst (rate_of (q_rate q))) (snd (rate_of (q_rate q))) (q_resource q) (q_reading q) (q_type q) in
        let key := (match nth_error reports i with Some r => cr_specifier r | None => SNone end, SStr r_id) in
        (set_callbacks (set ckey_eqb key (q_callback q) (cs_callbacks st)) (set_reports (update_nth i (add_desc d) reports) (set_heap heap st)),
         Ok (specifier, r_id))) = (st', Ok (s, r))) by (destruct item, (q_unit q); exact E || discriminate).
  clear E. revert E'. cbv zeta. set (r_id := match nonempty (q_rid q) with Some r => r | None => nr end).
  set (d := mk_cdesc (SStr r_id) item _ _ _ _ _). set (s0 := match nonempty (q_specifier q) with Some s => s | None => ns end).
  assert (RG : or_generated (q_rid q) nr r_id) by (apply nonempty_generated; reflexivity).
  destruct (find_index (finds q) (cs_reports st)) as [i|] eqn:FI.
  - destruct (find_index_some _ _ _ FI) as (rep & N & X & L). rewrite N. intros E. injection E as <- <- <-. split; [exact RG|].
    exists i, rep, d. split; [cbn [cs_reports set_callbacks set_reports]; now apply nth_update_same|].
    split; [intros j J; cbn [cs_reports set_callbacks set_reports]; apply nth_update_other; congruence|].
    split; [left; split; [exact N|]; split; [now apply finds_iff|]; split; [|reflexivity]; intros j x J K H; apply finds_iff in H; rewrite (L j x J K) in H; discriminate|].
    split; [reflexivity|]. split; [apply rate_rated|]. split; [reflexivity|]. split; [reflexivity|]. split; [reflexivity|].
    split; [exact HI|]. cbn [cs_callbacks set_callbacks]. split; [apply (get_set_same ckey_eqb ckey_eqb_eq)|].
    intros key K. now apply (get_set_other ckey_eqb ckey_eqb_eq).
  - set (rep := mk_crep (q_name q) (SStr s0) (q_mode q) []).
    assert (N : nth_error (cs_reports st ++ [rep]) (length (cs_reports st)) = Some rep) by (rewrite nth_error_app2, Nat.sub_diag by lia; reflexivity).
    rewrite N. intros E. injection E as <- <- <-. split; [exact RG|].
    exists (length (cs_reports st)), rep, d. split; [cbn [cs_reports set_callbacks set_reports]; now apply nth_update_same|].
    split.
    { intros j J. cbn [cs_reports set_callbacks set_reports]. rewrite nth_update_other by congruence. destruct (Nat.lt_ge_cases j (length (cs_reports st))) as [L|L]; [now rewrite nth_error_app1|].
      rewrite nth_error_app2 by lia. destruct (j - length (cs_reports st))%nat as [|k] eqn:D; [lia|].
      transitivity (@None crep); [now destruct k|]. symmetry. apply nth_error_None. lia. }
    split.
    { right. split; [reflexivity|]. split; [intros x IN H; apply finds_iff in H; rewrite (find_index_none _ _ FI x IN) in H; discriminate|].
      exists s0. split; [reflexivity|]. split; [apply nonempty_generated; reflexivity|reflexivity]. }
    split; [reflexivity|]. split; [apply rate_rated|]. split; [reflexivity|]. split; [reflexivity|]. split; [reflexivity|].
    split; [exact HI|]. cbn [cs_callbacks set_callbacks]. split; [apply (get_set_same ckey_eqb ckey_eqb_eq)|].
    intros key K. now apply (get_set_other ckey_eqb ckey_eqb_eq).
Qed.

(** ** The worker *)
Lemma worker_prefix creates answers queue : forall n, exists rest, queue = (fst (fst (worker creates answers n queue)) ++ rest)%list /\ snd (fst (worker creates answers n queue)) = [].
Proof.
  induction queue as [|og q IH]; intros n; cbn [worker]; [exists []; auto|].
  destruct (creates og); [|exists (og :: q); auto]. destruct (IH (S n)) as (rest & E & C).
  destruct (answers n og) as [[|t c]|]; [exists q; auto| |].
  - destruct (match t with Some t => _ | None => false end); [exists q; auto|]. destruct (worker creates answers (S n) q) as [[sent canc] x]. exists rest. simpl in *. subst. auto.
  - destruct (worker creates answers (S n) q) as [[sent canc] x]. exists rest. simpl in *. subst. auto.
Qed.

Lemma worker_all creates answers queue : forall n,
  (forall og, In og queue -> creates og = Ok tt) -> (forall m og, In og queue -> answers m og <> Ok Nothing) ->
  (forall m og t c, In og queue -> answers m og = Ok (Pair t c) -> t <> Some "cancel_report") ->
  worker creates answers n queue = (queue, [], Ok tt).
Proof.
  induction queue as [|og q IH]; intros n C A T; cbn [worker]; [reflexivity|].
  rewrite (C og (or_introl eq_refl)). assert (W := IH (S n) (fun o i => C o (or_intror i)) (fun m o i => A m o (or_intror i)) (fun m o t c i => T m o t c (or_intror i))).
  rewrite W. destruct (answers n og) as [[|t c]|] eqn:E; [elim (A n og (or_introl eq_refl) E)| |reflexivity].
  pose proof (T n og t c (or_introl eq_refl) E) as NT. destruct t as [t|]; [|reflexivity].
  destruct (t =? "cancel_report")%string eqn:Q; [apply String.eqb_eq in Q; congruence|reflexivity].
Qed.
