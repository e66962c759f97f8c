From Coq Require Import ZArith String List Bool Lia.
From Verif.Base Require Import Result Dict PyStr ListExtra.
From Verif.Model Require Import Measurements Cron ClientReports.
From Verif.Spec Require Import ClientReportSpec.
From Verif.Proofs Require Import ClientReportProofs.
Import ListNotations.
Local Open Scope string_scope.
Local Open Scope Z_scope.

Record inv (st : cstate) : Prop := mk_inv {
  i_ids : NoDup (map rr_id (cs_requests st));
  i_nums : NoDup (map fst (cs_jobs st));
  i_next : forall n j, In (n, j) (cs_jobs st) -> (n < cs_next_job st)%nat;
  i_job : forall r n, In r (cs_requests st) -> rr_job r = Some n -> (n < cs_next_job st)%nat /\ forall j, In (n, j) (cs_jobs st) -> exists c, j = Recurring (rr_id r) c;
  i_request : forall n id c, In (n, Recurring id c) (cs_jobs st) -> exists r, In r (cs_requests st) /\ rr_id r = id /\ rr_job r = Some n
}.

Lemma inv_same st st' : cs_requests st' = cs_requests st -> cs_jobs st' = cs_jobs st -> cs_next_job st' = cs_next_job st -> inv st -> inv st'.
Proof. intros E1 E2 E3 [A B C D E]. split; rewrite ?E1, ?E2, ?E3; assumption. Qed.

Lemma inv_update call quotient id st : inv st -> inv (fst (update_report call quotient id st)).
Proof. destruct (update_same call quotient id st) as (A1 & A2 & A3 & A4 & A5 & A6 & A7). now apply inv_same. Qed.

Lemma inv_filter p st : inv st -> inv (set_jobs (filter p (cs_jobs st)) (cs_next_job st) st).
Proof.
  intros [A B C D E]. split; cbn [cs_requests cs_jobs cs_next_job set_jobs].
  - exact A.
  - clear - B. induction (cs_jobs st) as [|x l IH]; [constructor|]. inversion B; subst. cbn [filter]. destruct (p x); [|auto]. cbn [map]. constructor; [|auto].
    intros I. apply H1. apply in_map_iff in I as (y & <- & I). apply filter_In in I as [I _]. now apply in_map.
  - intros n j I. apply filter_In in I as [I _]. eauto.
  - intros r n I J. destruct (D r n I J) as [L K]. split; [exact L|]. intros j H. apply filter_In in H as [H _]. auto.
  - intros n id c I. apply filter_In in I as [I _]. eauto.
Qed.

Lemma inv_new st st' r js : inv st -> ~ In (rr_id r) (map rr_id (cs_requests st)) -> cs_requests st' = (cs_requests st ++ [r])%list -> cs_jobs st' = (cs_jobs st ++ js)%list ->
  (js = [] /\ rr_job r = None /\ cs_next_job st' = cs_next_job st \/
   exists j, js = [(cs_next_job st, j)] /\ cs_next_job st' = S (cs_next_job st) /\
     ((exists c, j = Recurring (rr_id r) c) /\ rr_job r = Some (cs_next_job st) \/ (exists f t, j = Once f t) /\ rr_job r = None)) -> inv st'.
Proof.
  intros [A B C D E] N R J H.
  assert (NX : (cs_next_job st <= cs_next_job st')%nat) by (destruct H as [(_ & _ & ->)|(j & _ & -> & _)]; lia).
  assert (FJ : forall n j, In (n, j) js -> n = cs_next_job st /\ cs_next_job st' = S (cs_next_job st)).
  { intros n j I. destruct H as [(-> & _)|(j' & -> & E' & _)]; [destruct I|]. destruct I as [I|[]]. injection I as <- _. auto. }
  split; rewrite ?R, ?J.
  - rewrite map_app. simpl. clear - A N. induction (map rr_id (cs_requests st)) as [|x l IH]; simpl.
    + constructor; [intros []|constructor].
    + inversion A; subst. constructor; [|apply IH; [assumption|simpl in N; tauto]]. intros I. apply in_app_iff in I as [I|[I|[]]]; [contradiction|]. apply N. now left.
  - rewrite map_app. destruct H as [(-> & _)|(j & -> & _)]; simpl; [now rewrite app_nil_r|].
    clear - B C. assert (NI : ~ In (cs_next_job st) (map fst (cs_jobs st))).
    { intros I. apply in_map_iff in I as ([n j'] & E & I). simpl in E. subst. apply C in I. lia. }
    induction (map fst (cs_jobs st)) as [|x l IH]; simpl; [constructor; [intros []|constructor]|].
    inversion B; subst. constructor; [|apply IH; [assumption|simpl in NI; tauto]]. intros I. apply in_app_iff in I as [I|[I|[]]]; [contradiction|]. apply NI. now left.
  - intros n j I. apply in_app_iff in I as [I|I]; [apply C in I; lia|]. apply FJ in I as [-> ->]. lia.
  - intros r' n I Q. apply in_app_iff in I as [I|[<-|[]]].
    + destruct (D r' n I Q) as [L K]. split; [lia|]. intros j I'. apply in_app_iff in I' as [I'|I']; [auto|]. apply FJ in I' as [-> _]. lia.
    + destruct H as [(_ & H & _)|(j & -> & NN & [[[c ->] H]|[_ H]])]; [congruence| |congruence]. rewrite H in Q. injection Q as <-. split; [lia|].
      intros j' I'. apply in_app_iff in I' as [I'|[I'|[]]]; [apply C in I'; lia|]. injection I' as <-. eauto.
  - intros n id c I. apply in_app_iff in I as [I|I].
    + destruct (E n id c I) as (r' & I' & Q). exists r'. split; [apply in_or_app; now left|exact Q].
    + destruct H as [(-> & _)|(j & -> & NN & [[[c' ->] H]|[(f & t & ->) _]])]; [destruct I| |destruct I as [I|[]]; discriminate].
      destruct I as [I|[]]. injection I as <- <- <-. exists r. split; [apply in_or_app; right; now left|]. auto.
Qed.

Lemma process_inv call quotient fr single q st st' s' x : process call quotient fr single q st = (st', s', x) ->
  (cs_requests st' = cs_requests st /\ cs_jobs st' = cs_jobs st /\ cs_next_job st' = cs_next_job st) \/
  exists r js, rr_id r = cq_id q /\ cs_requests st' = (cs_requests st ++ [r])%list /\ cs_jobs st' = (cs_jobs st ++ js)%list /\
  (js = [] /\ rr_job r = None /\ cs_next_job st' = cs_next_job st \/
   exists j, js = [(cs_next_job st, j)] /\ cs_next_job st' = S (cs_next_job st) /\
     ((exists c, j = Recurring (rr_id r) c) /\ rr_job r = Some (cs_next_job st) \/ (exists f t, j = Once f t) /\ rr_job r = None)).
Proof.
  unfold process. destruct (is_invalid q) as [[|]|]; [intros E; injection E as <- <- <-; now left| |intros E; injection E as <- <- <-; now left].
  cbv zeta. set (st1 := set_frames _ st). destruct (find_report (cq_specifier q) (cs_reports st1)) as [report|].
  2:{ intros E. injection E as <- <- <-. right. eexists _, []. split; [|split; [reflexivity|split; [symmetry; apply app_nil_r|left; auto]]]. reflexivity. }
  destruct (check_payloads st1 report _ (cq_payloads q)) as [[[sg g] rs] [u|e]]; [|intros E; injection E as <- <- <-; left; auto].
  set (st2 := set_frames _ st1).
  destruct (if sg then Ok false else match cq_back q with Some b => Ok (0 <? b) | None => Raise AttributeError end) as [[|]|e]; [| |intros E; injection E as <- <- <-; left; auto].
  - destruct (_ <? second_us); intros E; injection E as <- <- <-; [left; auto|]. right.
    eexists (mk_rr (cq_id q) _ _ _ _ (Some (cs_next_job st))), [_]. split; [reflexivity|]. split; [reflexivity|]. split; [reflexivity|]. right.
    eexists. split; [reflexivity|]. split; [reflexivity|]. left. split; [eexists; reflexivity|reflexivity].
  - destruct (cq_at q) as [t|].
    + intros E. injection E as <- <- <-. right. eexists (mk_rr (cq_id q) _ _ _ _ None), [_]. split; [reflexivity|]. split; [reflexivity|]. split; [reflexivity|]. right.
      eexists. split; [reflexivity|]. split; [reflexivity|]. right. split; [eexists _, _; reflexivity|reflexivity].
    + set (st3 := set_requests _ st2). destruct (update_report call quotient (cq_id q) st3) as [s3 y] eqn:U.
      pose proof (update_same call quotient (cq_id q) st3) as S3. rewrite U in S3. destruct S3 as (A1 & A2 & A3 & A4 & A5 & A6 & A7). cbn [fst] in *.
      intros E. injection E as <- <- <-. right. eexists (mk_rr (cq_id q) _ _ _ _ None), []. split; [|split; [rewrite A4; reflexivity|split; [rewrite A6, app_nil_r; reflexivity|left; split; [reflexivity|split; [reflexivity|exact A7]]]]]. reflexivity.
Qed.

Lemma process_all_inv call quotient fr qs : forall single st b, inv st -> new_ids st qs -> inv (fst (process_all call quotient fr single qs st b)).
Proof.
  induction qs as [|q qs IH]; intros single st b I N; cbn [process_all]; [exact I|].
  destruct (process call quotient fr single q st) as [[st' s'] x] eqn:P. unfold new_ids in N. cbn [map] in N.
  assert (I' : inv st' /\ new_ids st' qs).
  { destruct (process_inv _ _ _ _ _ _ _ _ _ P) as [(A & B & C)|(r & js & R & A & B & C)].
    - split; [now apply (inv_same st)|]. unfold new_ids. rewrite A. now apply NoDup_remove_1 in N.
    - split.
      + eapply inv_new; [exact I| |exact A|exact B|exact C]. rewrite R. intros X. apply NoDup_remove_2 in N. apply N. apply in_or_app. now left.
      + unfold new_ids. rewrite A, map_app, <- app_assoc. simpl. now rewrite R. }
  destruct I' as [I' N']. destruct x; [now apply IH|exact I'].
Qed.

Lemma same_request_id st a x : same_request st a x = true -> rr_id x = rr_id a /\ rr_job x = rr_job a.
Proof.
  unfold same_request. rewrite !andb_true_iff, scalar_eqb_eq. intros (((((H & _) & _) & _) & _) & J). split; [congruence|].
  destruct (rr_job a) as [m|], (rr_job x) as [n|]; simpl in J; try discriminate; [|reflexivity]. apply Nat.eqb_eq in J. congruence.
Qed.
Lemma oz_eqb_refl o : oz_eqb o o = true.
Proof. destruct o; simpl; [apply Z.eqb_refl|reflexivity]. Qed.
Lemma onat_eqb_refl o : onat_eqb o o = true.
Proof. destruct o; simpl; [apply Nat.eqb_refl|reflexivity]. Qed.
Lemma same_request_refl st a : same_request st a a = true.
Proof. unfold same_request. rewrite !scalar_eqb_refl, !oz_eqb_refl, onat_eqb_refl. destruct (list_eq_dec _ _ _); [reflexivity|congruence]. Qed.

Lemma remove_request_filter (p : rr -> bool) id l : NoDup (map rr_id l) -> (forall x, In x l -> p x = true -> rr_id x = id) -> existsb p l = true ->
  remove_request p l = filter (fun x => negb (scalar_eqb (rr_id x) id)) l.
Proof.
  induction l as [|x l IH]; intros ND P E; [discriminate|]. inversion ND; subst. cbn [remove_request filter existsb] in *. destruct (p x) eqn:PX.
  - assert (X : rr_id x = id) by (apply P; [now left|assumption]). rewrite X, scalar_eqb_refl. cbn [negb]. symmetry. apply filter_all.
    intros y I. apply negb_true_iff, scalar_eqb_neq. intros Y. apply H1. rewrite X, <- Y. now apply in_map.
  - cbn [orb] in E. assert (X : rr_id x <> id).
    { apply existsb_exists in E as (y & I & Y). apply P in Y; [|now right]. intros X. apply H1. rewrite X, <- Y. now apply in_map. }
    apply scalar_eqb_neq in X. rewrite X. cbn [negb]. f_equal. apply IH; auto. intros y I. apply P. now right.
Qed.

Lemma unique_id (l : list rr) a b : NoDup (map rr_id l) -> In a l -> In b l -> rr_id a = rr_id b -> a = b.
Proof.
  induction l as [|x l IH]; intros ND A B E; [destruct A|]. inversion ND; subst. destruct A as [<-|A], B as [<-|B]; auto.
  - elim H1. rewrite E. now apply in_map.
  - elim H1. rewrite <- E. now apply in_map.
Qed.

Lemma cancel_end_ok call quotient r follow st st' m : inv st -> cancel_end call quotient r follow st = (st', Ok m) ->
  exists f, follow = Some f /\ m = (rr_id r, f) /\ (exists x, In x (cs_requests st) /\ rr_id x = rr_id r) /\
  cs_requests st' = filter (fun x => negb (scalar_eqb (rr_id x) (rr_id r))) (cs_requests st) /\
  cs_jobs st' = filter (fun j => negb (recurring_for (rr_id r) (snd j))) (cs_jobs st) /\
  cs_heap st' = cs_heap st /\ cs_reports st' = cs_reports st /\ cs_callbacks st' = cs_callbacks st /\ cs_frames st' = cs_frames st /\ cs_next_job st' = cs_next_job st /\
  (f = false -> cs_pending st' = cs_pending st /\ cs_incomplete st' = cs_incomplete st).
Proof.
  intros I. unfold cancel_end. cbv zeta.
  set (removed := match rr_job r with None => Ok st | Some n => _ end).
  destruct removed as [s1|] eqn:RM; [|discriminate]. unfold removed in RM.
  assert (S1 : cs_requests s1 = cs_requests st /\ cs_heap s1 = cs_heap st /\ cs_reports s1 = cs_reports st /\ cs_callbacks s1 = cs_callbacks st /\ cs_frames s1 = cs_frames st /\
               cs_next_job s1 = cs_next_job st /\ cs_pending s1 = cs_pending st /\ cs_incomplete s1 = cs_incomplete st /\
               cs_jobs s1 = match rr_job r with None => cs_jobs st | Some n => filter (fun j => negb (Nat.eqb (fst j) n)) (cs_jobs st) end).
  { destruct (rr_job r); [destruct (existsb _ (cs_jobs st)); [|discriminate]|]; injection RM as <-; repeat (split; [reflexivity|]); reflexivity. }
  destruct S1 as (E1 & E2 & E3 & E4 & E5 & E6 & E7 & E8 & E9).
  destruct follow as [f|]; [|discriminate].
  destruct (if f then update_report call quotient (rr_id r) s1 else (s1, Ok tt)) as [s2 [u|]] eqn:U; [|discriminate].
  assert (S2 : same_but_outgoing s1 s2).
  { destruct f; [|injection U as <- <-; apply same_refl]. pose proof (update_same call quotient (rr_id r) s1) as H. now rewrite U in H. }
  destruct S2 as (F1 & F2 & F3 & F4 & F5 & F6 & F7).
  destruct (existsb (same_request s2 r) (cs_requests s2)) eqn:X; [|discriminate]. intros E. injection E as <- <-.
  exists f. split; [reflexivity|]. split; [reflexivity|].
  rewrite F4, E1 in X. pose proof X as X'. apply existsb_exists in X' as (x & IX & SX). apply same_request_id in SX as [SX SJ].
  split; [eauto|]. cbn [cs_requests cs_jobs cs_heap cs_reports cs_callbacks cs_frames cs_next_job cs_pending cs_incomplete set_requests].
  split.
  { rewrite F4, E1. apply remove_request_filter; [apply I| |exact X]. intros y _ H. now apply same_request_id in H. }
  split.
  { rewrite F6, E9.
    assert (U1 : forall m c, In (m, Recurring (rr_id r) c) (cs_jobs st) -> rr_job r = Some m).
    { intros m c H. apply (i_request _ I) in H as (y & IY & Y & J). rewrite <- SX in Y. assert (y = x) by (eapply unique_id; [apply I|assumption|assumption|exact Y]). congruence. }
    destruct (rr_job r) as [n|] eqn:J.
    - apply filter_ext_in'. intros [m j] H. cbn [fst snd]. f_equal. destruct (i_job _ I x n IX SJ) as [_ K].
      destruct (Nat.eqb_spec m n) as [->|NE].
      + destruct (K j H) as [c ->]. simpl. rewrite SX, scalar_eqb_refl. reflexivity.
      + destruct j as [i c|]; [|reflexivity]. simpl. symmetry. apply scalar_eqb_neq. intros ->. apply U1 in H. congruence.
    - symmetry. apply filter_all. intros [m j] H. cbn [snd]. apply negb_true_iff. destruct j as [i c|]; [|reflexivity]. simpl. apply scalar_eqb_neq. intros ->. apply U1 in H. discriminate. }
  split; [congruence|]. split; [congruence|]. split; [congruence|]. split; [congruence|]. split; [congruence|].
  intros ->. injection U as <- _. auto.
Qed.

Lemma cancel_end_inv call quotient r follow st : inv st -> inv (fst (cancel_end call quotient r follow st)).
Proof.
  intros I. destruct (cancel_end call quotient r follow st) as [st' [m|e]] eqn:E.
  - destruct (cancel_end_ok _ _ _ _ _ _ _ I E) as (f & _ & _ & _ & R & J & _ & _ & _ & _ & NX & _).
    pose proof (inv_filter (fun j => negb (recurring_for (rr_id r) (snd j))) st I) as [A B C D F]. cbn [cs_requests cs_jobs cs_next_job set_jobs] in *.
    split; cbn [fst]; rewrite ?R, ?J, ?NX.
    + clear - A. induction (cs_requests st) as [|x l IH]; [constructor|]. inversion A; subst. cbn [filter]. destruct (negb _); [|auto]. cbn [map]. constructor; [|auto].
      intros I. apply H1. apply in_map_iff in I as (y & <- & I). apply filter_In in I as [I _]. now apply in_map.
    + exact B.
    + exact C.
    + intros x n H. apply filter_In in H as [H _]. now apply D.
    + intros n id c H. destruct (F n id c H) as (x & IX & X & XJ). exists x. split; [|auto]. apply filter_In. split; [exact IX|].
      apply filter_In in H as [_ H]. cbn [snd recurring_for] in H. rewrite X. exact H.
  - cbn [fst]. revert E. unfold cancel_end. cbv zeta. destruct (rr_job r) as [n|].
    + destruct (existsb _ (cs_jobs st)).
      * pose proof (inv_filter (fun j => negb (Nat.eqb (fst j) n)) st I) as I1. set (s1 := set_jobs _ _ st) in *. destruct follow as [[|]|].
        -- pose proof (inv_update call quotient (rr_id r) s1 I1) as I2. destruct (update_report call quotient (rr_id r) s1) as [s2 [u|]]; [|intros E; injection E as <- _; exact I2].
           destruct (existsb _ _); intros E; [discriminate|injection E as <- _; exact I2].
        -- destruct (existsb _ _); intros E; [discriminate|injection E as <- _; exact I1].
        -- intros E. injection E as <- _. exact I1.
      * intros E. injection E as <- _. exact I.
    + destruct follow as [[|]|].
      * pose proof (inv_update call quotient (rr_id r) st I) as I2. destruct (update_report call quotient (rr_id r) st) as [s2 [u|]]; [|intros E; injection E as <- _; exact I2].
        destruct (existsb _ _); intros E; [discriminate|injection E as <- _; exact I2].
      * destruct (existsb _ _); intros E; [discriminate|injection E as <- _; exact I].
      * intros E. injection E as <- _. exact I.
Qed.

Lemma history_inv st : history new_ids st -> inv st.
Proof.
  intros H. induction H.
  - split; rewrite ?H, ?H0; cbn [map]; [constructor|constructor|intros ? ? []|intros ? ? []|intros ? ? ? []].
  - unfold create_report. cbv zeta. set (st1 := set_frames _ st).
    assert (I1 : inv st1) by (now apply (inv_same st)). pose proof (process_all_inv call quotient (length (cs_frames st)) qs false st1 false I1 H0) as P.
    destruct (process_all call quotient (length (cs_frames st)) false qs st1 false). exact P.
  - now apply inv_update.
  - unfold run_job. destruct j; [now apply inv_update|]. destruct (nth_error _ _); [now apply inv_update|exact IHhistory].
  - now apply inv_filter.
  - unfold cancel_begin. destruct (find_request id (cs_requests st)); [|exact IHhistory]. destruct (rids_of st r); [exact IHhistory|].
    pose proof (inv_update call quotient id st IHhistory) as P. destruct (update_report call quotient id st). exact P.
  - now apply cancel_end_inv.
Qed.

(** A cancellation without a following report succeeds. *)
Lemma cancel_end_succeeds call quotient r st : In r (cs_requests st) -> (forall n, rr_job r = Some n -> exists j, In (n, j) (cs_jobs st)) ->
  exists st', cancel_end call quotient r (Some false) st = (st', Ok (rr_id r, false)).
Proof.
  intros I J. unfold cancel_end. cbv zeta.
  assert (R : exists s1, match rr_job r with None => Ok st | Some n => if existsb (fun j => Nat.eqb (fst j) n) (cs_jobs st)
      then Ok (set_jobs (filter (fun j => negb (Nat.eqb (fst j) n)) (cs_jobs st)) (cs_next_job st) st) else Raise KeyError end = Ok s1 /\ cs_requests s1 = cs_requests st).
  { destruct (rr_job r) as [n|]; [|eauto]. destruct (J n eq_refl) as [j H]. assert (X : existsb (fun j => Nat.eqb (fst j) n) (cs_jobs st) = true).
    { apply existsb_exists. exists (n, j). split; [exact H|]. apply Nat.eqb_refl. } rewrite X. eauto. }
  destruct R as (s1 & -> & E). assert (X : existsb (same_request s1 r) (cs_requests s1) = true).
  { apply existsb_exists. exists r. rewrite E. split; [exact I|apply same_request_refl]. }
  rewrite X. eauto.
Qed.

Lemma cancel_unknown call quotient id st : (forall r, In r (cs_requests st) -> rr_id r <> id) -> cancel_begin call quotient id st = (st, Ok None).
Proof.
  intros N. unfold cancel_begin. assert (F : find_request id (cs_requests st) = None); [|now rewrite F].
  apply (find_none_iff _ (fun r => rr_id r = id) (scalar_eqb_P rr_id id)). exact N.
Qed.
