(** Proofs about the VTN's report service over its life. *)
From Coq Require Import ZArith String Ascii List Bool Lia.
From Verif.Base Require Import Result Dict PyStr ListExtra.
From Verif.Model Require Import Reports ReportService.
From Verif.Spec Require Import ReportSpec ReportServiceSpec.
From Verif.Proofs Require Import ReportProofs.
Import ListNotations.
Local Open Scope list_scope.

Lemma after_snoc hist m : after (hist ++ [m]) = fst (handle m (after hist)).
Proof. unfold after. now rewrite fold_left_app. Qed.

(** ** Functionality of the vocabulary *)
Lemma described_fun rds r t t' : described rds r t -> described rds r t' -> t = t'.
Proof. intros D. revert t'. induction D; intros t' D'; inversion D'; subst; try congruence; auto. Qed.

Lemma payloads_fun rds ds : forall ps ps',
  Forall2 (fun d p => fst p = m_rid d /\ described rds (m_rid d) (snd p)) ds ps ->
  Forall2 (fun d p => fst p = m_rid d /\ described rds (m_rid d) (snd p)) ds ps' -> ps = ps'.
Proof.
  intros ps ps' F. revert ps'. induction F as [|d [a b] ds ps [E D] F IH]; intros ps' F'; inversion F' as [|? [a' b'] ? ps2 [E' D'] F2]; subst; [reflexivity|].
  simpl in *. f_equal; [|auto]. f_equal; [congruence|eapply described_fun; eassumption].
Qed.

Lemma expected_fun fresh i reports dss qs : expected fresh i reports dss qs -> forall qs', expected fresh i reports dss qs' -> qs = qs'.
Proof.
  intros X. induction X as [|i r rs dss qs X IH|i r rs ds dss q qs NE (A & B & C) (l & d & E & G & H) X IH]; intros qs' X'.
  - inversion X'. reflexivity.
  - inversion X' as [|? ? ? ? ? Y|? ? ? ? ? ? ? N]; subst; [auto|congruence].
  - inversion X' as [|? ? ? ? ? Y|? ? ? ? ? q2 qs2 N (A' & B' & C') (l' & d' & E' & G' & H') Y]; subst; [congruence|].
    f_equal; [|auto]. apply app_inj_tail in E' as [_ <-]. destruct q, q2; simpl in *. f_equal; try congruence. eapply payloads_fun; eassumption.
Qed.

Lemma clear_fun r es ds ds' : clear r es ds -> clear r es ds' -> ds = ds'.
Proof.
  assert (W : forall es ds, ds <> [] -> Forall2 demands es ds -> Forall (fun e => ~ well_formed e) es -> False).
  { intros es0 ds0 N F A. destruct F as [|e d es1 ds1 D F]; [congruence|]. apply (Forall_inv A). eapply demands_wf; eassumption. }
  intros [(-> & A)|(N & F & _)] [(-> & A')|(N' & F' & _)]; [reflexivity|exfalso; eauto|exfalso; eauto|].
  clear - F F'. revert ds' F'. induction F as [|e d es ds D F IH]; intros ds' F'; inversion F' as [|? d' ? ds2 D' F2]; subst; [reflexivity|].
  f_equal; [eapply demands_fun; eassumption|auto].
Qed.

Lemma clear_all_fun ess : forall reports dss dss', length ess = length dss -> length ess = length dss' ->
  Forall2 (fun r p => clear r (fst p) (snd p)) reports (combine ess dss) -> Forall2 (fun r p => clear r (fst p) (snd p)) reports (combine ess dss') -> dss = dss'.
Proof.
  induction ess as [|es ess IH]; intros reports [|ds dss] [|ds' dss'] L L' F F'; try discriminate; [reflexivity|].
  cbn [combine] in F, F'. inversion F as [|r ? rs ? C F1]; subst. inversion F' as [|? ? ? ? C' F1']; subst. simpl in *. f_equal; [eapply clear_fun; eassumption|eapply IH; eauto].
Qed.

Lemma clear_validate r es es' ds : map validate_entry es = map validate_entry es' -> clear r es ds -> clear r es' ds.
Proof.
  intros V [(-> & A)|(N & F & D)].
  - left. split; [reflexivity|]. apply skip_iff. rewrite <- V. now apply skip_iff.
  - right. split; [assumption|]. split; [|assumption]. apply Forall2_demands_validate. rewrite <- V. now apply Forall2_demands_validate.
Qed.

Lemma same_answers h v reports ess ess' : all_answers h v 0 reports ess -> all_answers h v 0 reports ess' ->
  Forall2 (fun es es' => map validate_entry es = map validate_entry es') ess ess'.
Proof.
  intros A A'. destruct (collect_answers h v reports ess 0 [] A) as (xs & E & V). destruct (collect_answers h v reports ess' 0 [] A') as (xs' & E' & V').
  assert (xs = xs') by congruence. subst xs'. clear - V V'. revert ess' V'.
  induction V as [|x es xs ess H V IH]; intros ess' V'; inversion V' as [|? es' ? ess2 H' V2]; subst; constructor; [congruence|auto].
Qed.

Lemma asks_fun m v v' fresh fresh' reports reports' dss dss' : asks m v fresh reports dss -> asks m v' fresh' reports' dss' ->
  v = v' /\ fresh = fresh' /\ reports = reports' /\ dss = dss'.
Proof.
  intros [fr h w rs ess ds INJ A L F] Q. inversion Q as [fr' h' w' rs' ess' ds' INJ' A' L' F']; subst. repeat (split; [reflexivity|]).
  pose proof (same_answers h v' reports' ess ess' A A') as S. clear A A' Q INJ INJ'.
  assert (LL : length ess = length ess') by (clear - S; induction S; simpl; congruence).
  apply (clear_all_fun ess' reports'); [congruence|assumption| |assumption]. clear F' L' LL.
  revert reports' ds L F. induction S as [|es es' ess ess' V S IH]; intros reports' [|d ds] L F; try discriminate; [exact F|].
  cbn [combine] in *. inversion F as [|r ? rs ? C F1]; subst. constructor; [eapply clear_validate; eassumption|]. apply IH; [now injection L|assumption].
Qed.

(** ** One registration *)
Lemma store_nodup id ds : forall cbs, NoDup (map fst cbs) -> NoDup (map fst (store id ds cbs)).
Proof.
  induction ds as [|d ds IH]; intros cbs N; [exact N|]. apply (IH (set key_eqb (id, m_rid d) (m_callback d) cbs)). apply (nodup_set key_eqb key_eqb_eq). exact N.
Qed.

Lemma store_all_nodup fresh dss : forall i cbs, NoDup (map fst cbs) -> NoDup (map fst (store_all fresh i dss cbs)).
Proof. induction dss as [|ds dss IH]; intros i cbs N; [exact N|]. cbn [store_all]. apply IH, store_nodup, N. Qed.

Lemma register_ok m v fresh reports dss s : asks m v fresh reports dss ->
  exists qs, snd (handle m s) = Registered (Ok qs) /\ expected fresh 0 reports dss qs /\ created (fst (handle m s)) = created s /\
    get scalar_eqb v (requested (srv (fst (handle m s)))) = Some qs /\
    (forall w, w <> v -> get scalar_eqb w (requested (srv (fst (handle m s)))) = get scalar_eqb w (requested (srv s))) /\
    report_callbacks (srv (fst (handle m s))) = store_all fresh 0 dss (report_callbacks (srv s)).
Proof.
  intros [fr h w rs ess ds INJ A L F]. cbn [handle]. unfold register_report.
  destruct (collect_answers h w rs ess 0 (match get scalar_eqb w (registered (srv s)) with Some l => l | None => [] end) A) as (xs & E & V).
  destruct (collect h w 0 rs _) as [reg y]. simpl in E. subst y.
  destruct (form_ok fr rs 0 xs ess ds (report_callbacks (srv s)) V F L) as (qs & Q & X). rewrite Q. simpl. exists qs. split; [reflexivity|]. split; [exact X|].
  split; [reflexivity|]. split; [apply get_set_same; exact scalar_eqb_eq|]. split; [intros u N; apply get_set_other; [exact scalar_eqb_eq|assumption]|reflexivity].
Qed.

(** What a message that asks for nothing leaves. *)
Lemma no_asks m s : answered m -> (forall v fresh reports dss, ~ asks m v fresh reports dss) -> srv (fst (handle m s)) = srv s.
Proof.
  intros A N. destruct m as [fresh h v [reports|]|v pending|user v reports]; cbn [handle].
  - destruct (A _ _ _ _ eq_refl) as (dss & Q). destruct (N _ _ _ _ Q).
  - reflexivity.
  - destruct (created_report _ _ _ _). reflexivity.
  - destruct (update_report _ _ _). reflexivity.
Qed.

Lemma asks_dec m : answered m -> (exists v fresh reports dss, asks m v fresh reports dss) \/ forall v fresh reports dss, ~ asks m v fresh reports dss.
Proof.
  intros A. destruct m as [fresh h v [reports|]|v pending|user v reports].
  - left. destruct (A _ _ _ _ eq_refl) as (dss & Q). eauto.
  - right. intros ? ? ? ? Q. inversion Q.
  - right. intros ? ? ? ? Q. inversion Q.
  - right. intros ? ? ? ? Q. inversion Q.
Qed.

Lemma asks_injective m v fresh reports dss : asks m v fresh reports dss -> forall a b, fresh a = fresh b -> a = b.
Proof. intros [fr h w rs ess ds INJ A L F]. exact INJ. Qed.

(** ** Callbacks *)
Lemma registers_fun id ds key c c' : registers id ds key c -> registers id ds key c' -> c = c'.
Proof. intros R R'. pose proof (store_registers id ds [] key c R). pose proof (store_registers id ds [] key c' R'). congruence. Qed.

Lemma registers_dec (fresh : nat -> string) dss key : (exists k ds c, nth_error dss k = Some ds /\ registers (fresh k) ds key c) \/
  forall k ds c, nth_error dss k = Some ds -> ~ registers (fresh k) ds key c.
Proof.
  revert fresh. induction dss as [|ds dss IH]; intros fresh.
  - right. intros [|k] ds c E; discriminate.
  - destruct (IH (fun k => fresh (S k))) as [(k & ds' & c & E & R)|N]; [left; exists (S k), ds', c; auto|].
    destruct (string_dec (fst key) (fresh 0%nat)) as [E|E].
    + destruct (in_dec scalar_eq_dec (snd key) (map m_rid ds)) as [I|I].
      * destruct (registers_exists (fresh 0%nat) ds (snd key) I) as (c & R). left. exists 0%nat, ds, c. split; [reflexivity|]. destruct key; simpl in *. now subst.
      * right. intros [|k] ds' c Q; [injection Q as <-|now apply N]. intros (_ & l1 & d & l2 & -> & R & _). apply I. rewrite map_app. apply in_app_iff. right. now left.
    + right. intros [|k] ds' c Q; [injection Q as <-|now apply N]. intros (R & _). contradiction.
Qed.

Lemma callbacks_of_life hist : Forall answered hist -> NoDup (map fst (report_callbacks (srv (after hist)))) /\
  forall key c, get key_eqb key (report_callbacks (srv (after hist))) = Some c <-> given hist key c.
Proof.
  induction hist as [|m hist IH] using rev_ind; intros A.
  - split; [constructor|]. intros key c. split; [discriminate|]. intros G. inversion G as [h m v k c0 G' E|h m k c0 G' N E]; destruct h; discriminate.
  - apply Forall_app in A as [A AM]. apply Forall_inv in AM. destruct (IH A) as [ND H]. rewrite after_snoc. clear IH.
    destruct (asks_dec m AM) as [(v & fresh & reports & dss & Q)|N].
    + destruct (register_ok m v fresh reports dss (after hist) Q) as (qs & _ & _ & _ & _ & _ & ->). split; [now apply store_all_nodup|].
      intros key c. destruct (registers_dec fresh dss key) as [(k & ds & c' & E & R)|NR].
      * rewrite (store_all_registers fresh (asks_injective _ _ _ _ _ Q) dss 0 _ key k ds c' E R).
        split.
        -- intros X. injection X as <-. apply (given_last hist m v). exists fresh, reports, dss, k, ds. auto.
        -- intros G. inversion G as [h m' v' k' c0 G' EE|h m' k' c0 G' N EE]; apply app_inj_tail in EE as [-> ->].
           ++ destruct G' as (fr & rs & dss' & k2 & ds2 & Q' & E' & R'). destruct (asks_fun _ _ _ _ _ _ _ _ _ Q Q') as (_ & <- & _ & <-).
              f_equal. assert (k = k2). { apply (asks_injective _ _ _ _ _ Q). destruct R as [R _], R' as [R' _]. congruence. }
              subst k2. assert (ds = ds2) by congruence. subst ds2. eapply registers_fun; eassumption.
           ++ destruct (N v c'). exists fresh, reports, dss, k, ds. auto.
      * rewrite store_all_other by exact NR. rewrite H.
        assert (NG : forall v' c', ~ gives m v' key c').
        { intros v' c' (fr & rs & dss' & k2 & ds2 & Q' & E' & R'). destruct (asks_fun _ _ _ _ _ _ _ _ _ Q Q') as (_ & <- & _ & <-). eapply NR; eassumption. }
        split; intros G; [now apply given_before|].
        inversion G as [h m' v' k' c0 G' EE|h m' k' c0 G' N EE]; apply app_inj_tail in EE as [-> ->]; [destruct (NG _ _ G')|exact G'].
    + rewrite (no_asks m (after hist) AM N). split; [exact ND|]. intros key c. rewrite H.
      assert (NG : forall v' c', ~ gives m v' key c') by (intros v' c' (fr & rs & dss' & k2 & ds2 & Q' & _); eapply N; exact Q').
      split; intros G; [now apply given_before|].
      inversion G as [h m' v' k' c0 G' EE|h m' k' c0 G' N' EE]; apply app_inj_tail in EE as [-> ->]; [destruct (NG _ _ G')|exact G'].
Qed.

(** ** Confirmations *)
Lemma created_of_life hist v id : confirmed hist v id <-> exists l, get scalar_eqb v (created (after hist)) = Some l /\ In id l.
Proof.
  induction hist as [|m hist IH] using rev_ind.
  - split; [intros (p & [] & _)|]. intros (l & E & _). discriminate.
  - rewrite after_snoc. assert (C : confirmed (hist ++ [m]) v id <-> confirmed hist v id \/ exists p, m = Created v p /\ In id p).
    { unfold confirmed. split.
      - intros (p & I & J). apply in_app_iff in I as [I|[I|[]]]; [left; eauto|right; subst; eauto].
      - intros [(p & I & J)|(p & -> & J)]; exists p; (split; [apply in_app_iff|assumption]); [now left|right; now left]. }
    rewrite C, IH. clear C IH. destruct m as [fresh h w reports|w pending|user w reports]; cbn [handle].
    + destruct (register_report _ _ _ _ _). simpl. split; [intros [H|(p & E & _)]; [exact H|discriminate]|tauto].
    + unfold created_report. cbn [fst created]. destruct (scalar_eq_dec v w) as [->|N].
      * rewrite (get_set_same scalar_eqb scalar_eqb_eq). split.
        -- intros [(l & E & I)|(p & E & I)]; (eexists; split; [reflexivity|]); apply in_app_iff; [left; rewrite E; exact I|right; injection E as <-; exact I].
        -- intros (l & E & I). injection E as <-. apply in_app_iff in I as [I|I]; [|right; eauto]. left. destruct (get scalar_eqb w (created (after hist))) as [l|]; [eauto|contradiction].
      * rewrite (get_set_other scalar_eqb scalar_eqb_eq) by assumption. split; [intros [H|(p & E & _)]; [exact H|congruence]|tauto].
    + destruct (update_report _ _ _). simpl. split; [intros [H|(p & E & _)]; [exact H|discriminate]|tauto].
Qed.

Lemma wanted_of_life hist v : Forall answered hist -> forall qs, get scalar_eqb v (requested (srv (after hist))) = Some qs <-> wanted hist v qs.
Proof.
  induction hist as [|m hist IH] using rev_ind; intros A qs.
  - split; [discriminate|]. intros W. inversion W as [h m w fr rs dss q Q X E|h m w q W' N E]; destruct h; discriminate.
  - apply Forall_app in A as [A AM]. apply Forall_inv in AM. rewrite after_snoc.
    destruct (asks_dec m AM) as [(w & fresh & reports & dss & Q)|N].
    + destruct (register_ok m w fresh reports dss (after hist) Q) as (qs' & _ & X & _ & G & O & _). destruct (scalar_eq_dec v w) as [->|NE].
      * rewrite G. split.
        -- intros E. injection E as <-. eapply wanted_last; eassumption.
        -- intros W. inversion W as [h m' w' fr rs dss' q Q' X' E|h m' w' q W' N E]; apply app_inj_tail in E as [-> ->].
           ++ destruct (asks_fun _ _ _ _ _ _ _ _ _ Q Q') as (_ & <- & <- & <-). f_equal. eapply expected_fun; eassumption.
           ++ destruct (N _ _ _ Q).
      * rewrite (O v NE), (IH A). split.
        -- intros W. apply wanted_before; [exact W|]. intros fr rs dss' Q'. destruct (asks_fun _ _ _ _ _ _ _ _ _ Q Q') as (E & _). congruence.
        -- intros W. inversion W as [h m' w' fr rs dss' q Q' X' E|h m' w' q W' N E]; apply app_inj_tail in E as [-> ->]; [|exact W'].
           destruct (asks_fun _ _ _ _ _ _ _ _ _ Q Q') as (E & _). congruence.
    + rewrite (no_asks m (after hist) AM N), (IH A). split.
      * intros W. apply wanted_before; [exact W|]. intros fr rs dss'. apply N.
      * intros W. inversion W as [h m' w' fr rs dss' q Q' X' E|h m' w' q W' N' E]; apply app_inj_tail in E as [-> ->]; [|exact W'].
        destruct (N _ _ _ _ Q').
Qed.

Lemma picks_filter {A} (P : A -> Prop) (f : A -> bool) l : (forall x, f x = true <-> P x) -> picks P l (filter f l).
Proof.
  intros H. induction l as [|x l IH]; simpl; [constructor|]. destruct (f x) eqn:E; constructor; try assumption; [now apply H|]. intros X. apply H in X. congruence.
Qed.

Lemma missing_of_life hist v pending qs : Forall answered hist -> wanted hist v qs ->
  exists missing, snd (handle (Created v pending) (after hist)) = Missing (Ok missing) /\
    picks (fun q => ~ confirmed (hist ++ [Created v pending]) v (rq_id q)) qs missing.
Proof.
  intros A W. apply (wanted_of_life hist v A) in W.
  pose proof (fun id => created_of_life (hist ++ [Created v pending]) v id) as C.
  rewrite after_snoc in C. cbn [handle] in *. unfold created_report in *. cbn [fst snd created] in *. rewrite W.
  eexists. split; [reflexivity|]. apply picks_filter. intros q. rewrite C, (get_set_same scalar_eqb scalar_eqb_eq).
  set (l := _ ++ pending). rewrite negb_true_iff. destruct (existsb (String.eqb (rq_id q)) l) eqn:E.
  - split; [discriminate|]. intros N. destruct N. apply existsb_exists in E as (x & I & E). apply String.eqb_eq in E. subst x. eauto.
  - split; [|reflexivity]. intros _ (l' & E' & I). injection E' as <-.
    assert (existsb (String.eqb (rq_id q)) l = true) by (apply existsb_exists; exists (rq_id q); split; [assumption|apply String.eqb_refl]). congruence.
Qed.

Lemma given_gives hist key c : given hist key c -> exists m v, In m hist /\ gives m v key c.
Proof.
  intros G. induction G as [hist m v key c G|hist m key c G (m' & v & I & H) N].
  - exists m, v. split; [apply in_app_iff; right; now left|assumption].
  - exists m', v. split; [apply in_app_iff; now left|assumption].
Qed.

Lemma reaches_of_life hist report : Forall answered hist -> (exists key c, given hist key c) ->
  reaches hist report (deliveries (report_callbacks (srv (after hist))) report).
Proof.
  intros A (key & c & G). destruct (callbacks_of_life hist A) as [ND H].
  assert (IN : forall key c, In (key, c) (report_callbacks (srv (after hist))) <-> given hist key c).
  { intros key' c'. rewrite <- H. split; [now apply in_get_nodup; [exact key_eqb_eq|]|apply get_in; exact key_eqb_eq]. }
  assert (NE : report_callbacks (srv (after hist)) <> []) by (intros E; apply IN in G; rewrite E in G; contradiction).
  destruct (deliveries_spec _ report ND NE) as (rids & N & I & F). exists rids. split; [exact N|]. split.
  - intros r. rewrite I. split; intros (J & c' & K); (split; [assumption|]); exists c'; now apply IN.
  - eapply Forall2_impl; [|exact F]. intros r d (c' & K & ->). exists c'. split; [now apply IN|reflexivity].
Qed.
