From Coq Require Import ZArith String List Bool Lia.
From Verif.Base Require Import Result Dict PyStr ListExtra.
From Verif.Model Require Import Reports.
From Verif.Spec Require Import ReportSpec.
Import ListNotations.
Local Open Scope string_scope.
Local Open Scope Z_scope.

(** ** Entries *)
Lemma validate_wf e : well_formed e -> validate_entry e = e.
Proof. intros [r c s|r c s b]; reflexivity. Qed.

Lemma validate_cases e : (well_formed e /\ validate_entry e = e) \/ (~ well_formed e /\ validate_entry e = ENone).
Proof.
  destruct e as [|l|].
  - right. split; [intros H; inversion H|reflexivity].
  - destruct l as [|a [|b [|c [|d [|x l]]]]]; try (right; split; [intros H; inversion H|reflexivity]).
    + destruct b, c; try (right; split; [intros H; inversion H|reflexivity]). left. split; [constructor|reflexivity].
    + destruct b, c, d; try (right; split; [intros H; inversion H|reflexivity]). left. split; [constructor|reflexivity].
  - right. split; [intros H; inversion H|reflexivity].
Qed.

Lemma validate_only e : validate_entry (only_tuples e) = validate_entry e.
Proof. now destruct e. Qed.

Lemma validate_none e : is_none (validate_entry e) = true <-> ~ well_formed e.
Proof.
  destruct (validate_cases e) as [[W ->]|[W ->]].
  - split; [|tauto]. destruct W; discriminate.
  - split; auto.
Qed.

Lemma demands_wf e d : demands e d -> well_formed e.
Proof. intros [r c s|r c s b]; constructor. Qed.

Lemma demands_validate e d : demands (validate_entry e) d <-> demands e d.
Proof.
  destruct (validate_cases e) as [[W ->]|[W ->]]; [tauto|]. split; intros H; [inversion H|]. apply demands_wf in H. contradiction.
Qed.

Lemma demands_fun e d d' : demands e d -> demands e d' -> d = d'.
Proof. intros H H'. destruct H; inversion H'; reflexivity. Qed.

Lemma Forall2_demands_validate es ds : Forall2 demands (map validate_entry es) ds <-> Forall2 demands es ds.
Proof.
  rewrite Forall2_map_l. split; intros H; (eapply Forall2_impl; [|exact H]); intros e d; apply demands_validate.
Qed.

(** ** What the handler answered *)
Lemma call_each_spec f i ven status rds : forall j raw,
  (call_each ven f i j status rds = Ok raw <->
   length raw = length rds /\ forall k rd e, nth_error rds k = Some rd -> nth_error raw k = Some e -> exists a, told ven status rd a /\ f i (j + k)%nat a = Ok e).
Proof.
  assert (TA : forall rd a, compact_args ven status rd = Ok a <-> told ven status rd a).
  { intros rd a. unfold compact_args, told. destruct status.
    - cbn [bind]. destruct (d_rate rd) as [[lo hi]|].
      + split; [intros H; injection H as <-; auto 10|]. intros (E1 & E2 & E3 & E4 & E5 & E6). destruct a; simpl in *. subst. injection E3 as -> ->. reflexivity.
      + split; [discriminate|]. intros (_ & _ & E & _). discriminate.
    - destruct (d_measurement rd) as [[[m u] s]|]; cbn [bind].
      + destruct (d_rate rd) as [[lo hi]|].
        * split; [intros H; injection H as <-; simpl; eauto 10|]. intros (E1 & E2 & E3 & u' & s' & E4 & E5 & E6). destruct a; simpl in *. subst. injection E3 as -> ->. injection E6 as -> -> ->. reflexivity.
        * split; [discriminate|]. intros (_ & _ & E & _). discriminate.
      + split; [discriminate|]. intros (_ & _ & _ & u & s & _ & _ & E). discriminate. }
  induction rds as [|rd rds IH]; intros j raw; cbn [call_each].
  - split.
    + intros H. injection H as <-. split; [reflexivity|]. intros [|k]; discriminate.
    + intros [L _]. destruct raw; [reflexivity|discriminate].
  - destruct (compact_args ven status rd) as [a|x] eqn:A; cbn [bind].
    + apply TA in A. destruct (f i j a) as [e|x] eqn:F; cbn [bind].
      * destruct (call_each ven f i (S j) status rds) as [es|x] eqn:C; cbn [bind].
        -- apply IH in C as [L C]. split.
           ++ intros H. injection H as <-. split; [simpl; congruence|]. intros [|k] rd' e' N N'; simpl in N, N'.
              ** injection N as <-. injection N' as <-. rewrite Nat.add_0_r. eauto.
              ** destruct (C k rd' e' N N') as (a' & T & Q). exists a'. split; [assumption|]. now rewrite Nat.add_succ_r.
           ++ intros [L' H]. destruct raw as [|e' raw]; [discriminate|]. f_equal.
              destruct (H 0%nat rd e' eq_refl eq_refl) as (a' & T & Q). rewrite Nat.add_0_r in Q.
              assert (a' = a) by (apply TA in T, A; congruence). subst a'. rewrite F in Q. injection Q as <-. f_equal.
              assert (S2 : call_each ven f i (S j) status rds = Ok raw).
              { apply IH. simpl in L'. injection L' as L'. split; [assumption|]. intros k rd' e' N N'. destruct (H (S k) rd' e' N N') as (a' & T' & Q). exists a'. split; [assumption|]. now rewrite Nat.add_succ_r in Q. }
              assert (S1 : call_each ven f i (S j) status rds = Ok es) by (apply IH; auto). congruence.
        -- split; [discriminate|]. intros [L' H]. destruct raw as [|e' raw]; [discriminate|]. exfalso.
           assert (S2 : call_each ven f i (S j) status rds = Ok raw).
           { apply IH. simpl in L'. injection L' as L'. split; [assumption|]. intros k rd' e2 N N'. destruct (H (S k) rd' e2 N N') as (a' & T' & Q). exists a'. split; [assumption|]. now rewrite Nat.add_succ_r in Q. }
           congruence.
      * split; [discriminate|]. intros [L' H]. destruct raw as [|e' raw]; [discriminate|]. exfalso.
        destruct (H 0%nat rd e' eq_refl eq_refl) as (a' & T & Q). rewrite Nat.add_0_r in Q. assert (a' = a) by (apply TA in T, A; congruence). congruence.
    + split; [discriminate|]. intros [L' H]. destruct raw as [|e' raw]; [discriminate|]. exfalso.
      destruct (H 0%nat rd e' eq_refl eq_refl) as (a' & T & Q). apply TA in T. congruence.
Qed.

Lemma with_rids_prepend rds raw es : with_rids rds raw es -> prepend rds (map only_tuples raw) = es.
Proof. intros W. induction W; unfold prepend in *; simpl; congruence. Qed.

Lemma with_rids_exists rds raw : length raw = length rds -> with_rids rds raw (prepend rds (map only_tuples raw)).
Proof.
  revert raw. induction rds as [|rd rds IH]; intros [|e raw] L; simpl in L; try discriminate; [constructor|].
  injection L as L. unfold prepend. destruct e; simpl; constructor; now apply IH.
Qed.

Lemma with_rids_tuples rds raw es : with_rids rds raw es -> map only_tuples es = es.
Proof. intros W. induction W; simpl; congruence. Qed.

Definition entries (x : option (list entry)) : list entry := match x with Some l => l | None => [] end.

Lemma telemetry_dec report : {s | telemetry s report} + {forall s, ~ telemetry s report}.
Proof.
  unfold telemetry. destruct (string_dec (o_name report) "METADATA_TELEMETRY_STATUS") as [E|N].
  - left. exists true. assumption.
  - destruct (string_dec (o_name report) "METADATA_TELEMETRY_USAGE") as [E|N2].
    + left. exists false. assumption.
    + right. now intros [].
Qed.

Lemma ask_telemetry h ven i report s : telemetry s report ->
  ask h ven i report =
    match h with
    | Compact f => bind (call_each ven f i 0 s (o_descs report)) (fun es => Ok (Some (prepend (o_descs report) (map only_tuples es))))
    | Full f => bind (f i report) (fun o => Ok (match o with ReturnsNone | ReturnsOther => None | ReturnsList l => Some (map only_tuples l) end))
    end.
Proof.
  intros T. unfold telemetry in T. unfold ask. rewrite T. destruct s.
  - rewrite String.eqb_refl. destruct h; [reflexivity|]. destruct (f i report) as [[]|]; reflexivity.
  - change ("METADATA_TELEMETRY_USAGE" =? "METADATA_TELEMETRY_STATUS")%string with false. rewrite String.eqb_refl.
    destruct h; [reflexivity|]. destruct (f i report) as [[]|]; reflexivity.
Qed.

Lemma ask_not h ven i report : (forall s, ~ telemetry s report) -> ask h ven i report = Ok None.
Proof.
  intros N. unfold ask. destruct (String.eqb_spec (o_name report) "METADATA_TELEMETRY_STATUS") as [E|_]; [elim (N true E)|].
  destruct (String.eqb_spec (o_name report) "METADATA_TELEMETRY_USAGE") as [E|_]; [elim (N false E)|]. reflexivity.
Qed.

Lemma ask_answers h ven i report es : answers h ven i report es ->
  exists x, ask h ven i report = Ok x /\ map validate_entry (entries x) = map validate_entry es.
Proof.
  intros A. destruct A as [f ven i report s es T F|f ven i report s T F|f ven i report s T F|f ven i report s raw es T L F W|h ven i report N].
  - rewrite (ask_telemetry _ _ _ _ s T), F. cbn [bind]. eexists. split; [reflexivity|]. simpl. rewrite map_map. apply map_ext. apply validate_only.
  - rewrite (ask_telemetry _ _ _ _ s T), F. cbn [bind]. eexists. split; reflexivity.
  - rewrite (ask_telemetry _ _ _ _ s T), F. cbn [bind]. eexists. split; reflexivity.
  - rewrite (ask_telemetry _ _ _ _ s T). rewrite (proj2 (call_each_spec f i ven s (o_descs report) 0 raw)); [|split; [assumption|exact F]].
    cbn [bind]. eexists. split; [reflexivity|]. simpl. now rewrite (with_rids_prepend _ _ _ W).
  - rewrite ask_not by assumption. eexists. split; reflexivity.
Qed.

(** Conversely, when asking does not raise, there is an answer. *)
Lemma ask_ok h ven i report x : ask h ven i report = Ok x ->
  exists es, answers h ven i report es /\ map validate_entry (entries x) = map validate_entry es.
Proof.
  intros H. destruct (telemetry_dec report) as [(s & T)|N].
  - rewrite (ask_telemetry _ _ _ _ s T) in H. destruct h as [f|f].
    + destruct (call_each ven f i 0 s (o_descs report)) as [raw|] eqn:C; cbn [bind] in H; [|discriminate]. injection H as <-.
      apply call_each_spec in C as [L C]. exists (prepend (o_descs report) (map only_tuples raw)). split; [|reflexivity].
      eapply an_compact; [eassumption..|]. now apply with_rids_exists.
    + destruct (f i report) as [o|] eqn:F; cbn [bind] in H; [|discriminate]. injection H as <-. destruct o as [| |l].
      * exists []. split; [eapply an_none; eassumption|reflexivity].
      * exists []. split; [eapply an_other; eassumption|reflexivity].
      * exists l. split; [eapply an_full; eassumption|]. simpl. rewrite map_map. apply map_ext, validate_only.
  - rewrite ask_not in H by assumption. injection H as <-. exists []. split; [now constructor|reflexivity].
Qed.

Lemma collect_reg h ven reports : forall i reg, exists k, fst (collect h ven i reports reg) = (reg ++ map renamed (firstn k reports))%list /\
  (forall a, snd (collect h ven i reports reg) = Ok a -> fst (collect h ven i reports reg) = (reg ++ map renamed reports)%list).
Proof.
  induction reports as [|r rs IH]; intros i reg; cbn [collect].
  - exists 0%nat. simpl. rewrite app_nil_r. auto.
  - destruct (ask h ven i r) as [x|e].
    + destruct (IH (S i) (reg ++ [renamed r])%list) as (k & E & A). destruct (collect h ven (S i) rs (reg ++ [renamed r])) as [reg' y] eqn:C. simpl in E, A.
      exists (S k). simpl. split; [rewrite E, <- app_assoc; reflexivity|]. intros a. destruct y as [l|]; cbn [bind]; [|discriminate]. intros _.
      rewrite (A l eq_refl), <- app_assoc. reflexivity.
    + exists 1%nat. simpl. split; [reflexivity|discriminate].
Qed.

Lemma collect_answers h ven reports ess : forall i reg, all_answers h ven i reports ess ->
  exists xs, snd (collect h ven i reports reg) = Ok xs /\ Forall2 (fun x es => map validate_entry (entries x) = map validate_entry es) xs ess.
Proof.
  intros i reg A. revert reg. induction A as [i|i r rs es ess A _ IH]; intros reg; cbn [collect].
  - exists []. split; [reflexivity|constructor].
  - destruct (ask_answers _ _ _ _ _ A) as (x & E & V). rewrite E. destruct (IH (reg ++ [renamed r])%list) as (xs & Q & F).
    destruct (collect h ven (S i) rs (reg ++ [renamed r])) as [reg' y]. simpl in Q. subst y. cbn [bind]. simpl. exists (x :: xs). split; [reflexivity|]. now constructor.
Qed.

Lemma collect_ok h ven reports : forall i reg xs, snd (collect h ven i reports reg) = Ok xs ->
  exists ess, all_answers h ven i reports ess /\ Forall2 (fun x es => map validate_entry (entries x) = map validate_entry es) xs ess.
Proof.
  induction reports as [|r rs IH]; intros i reg xs; cbn [collect].
  - simpl. intros H. injection H as <-. exists []. split; constructor.
  - destruct (ask h ven i r) as [x|e] eqn:E; [|discriminate]. apply ask_ok in E as (es & A & V).
    specialize (IH (S i) (reg ++ [renamed r])%list). destruct (collect h ven (S i) rs (reg ++ [renamed r])) as [reg' y]. simpl in *.
    destruct y as [l|]; cbn [bind]; [|discriminate]. intros H. injection H as <-. destruct (IH l eq_refl) as (ess & A' & F).
    exists (es :: ess). split; constructor; assumption.
Qed.

(** ** Forming the requests *)
Lemma find_desc_iff r rds t : (exists rd, find_desc r rds = Some rd /\ d_reading rd = t) <-> described rds r t.
Proof.
  induction rds as [|rd rds IH]; cbn [find_desc].
  - split; [intros (? & H & _); discriminate|intros H; inversion H].
  - destruct (scalar_eqb (d_rid rd) r) eqn:E.
    + apply scalar_eqb_eq in E. subst r. split.
      * intros (rd' & H & <-). injection H as <-. constructor.
      * intros H. inversion H; subst; [eauto|contradiction].
    + apply scalar_eqb_neq in E. rewrite IH. split; [now constructor|]. intros H. inversion H; subst; [contradiction|assumption].
Qed.

Lemma find_desc_none r rds : find_desc r rds = None <-> ~ exists t, described rds r t.
Proof.
  destruct (find_desc r rds) as [rd|] eqn:F.
  - split; [discriminate|]. intros N. elim N. exists (d_reading rd). apply find_desc_iff. eauto.
  - split; [|reflexivity]. intros _ (t & D). apply find_desc_iff in D as (rd & E & _). congruence.
Qed.

Definition store (id : string) (ds : list demand) (cbs : callbacks) : callbacks :=
  fold_left (fun c d => set key_eqb (id, m_rid d) (m_callback d) c) ds cbs.
Definition final (ds : list demand) (last : Z * Z) : Z * Z := fold_left (fun _ d => (m_sampling d, m_back d)) ds last.

Lemma form_payloads_ok id rds l ds : Forall2 demands l ds -> Forall (fun d => exists t, described rds (m_rid d) t) ds ->
  forall cbs acc last, exists ps, form_payloads id rds l cbs acc last = (store id ds cbs, Ok ((acc ++ ps)%list, final ds last)) /\
    Forall2 (fun d p => fst p = m_rid d /\ described rds (m_rid d) (snd p)) ds ps.
Proof.
  intros F. induction F as [|e d l ds D F IH]; intros K cbs acc last.
  - exists []. cbn [form_payloads]. rewrite app_nil_r. split; [reflexivity|constructor].
  - inversion K as [|? ? (t & T) K']; subst. destruct (proj2 (find_desc_iff _ _ _) T) as (rd & E & R).
    destruct D as [r c s|r c s b]; cbn [form_payloads m_rid] in *; rewrite E.
    + destruct (IH K' (set key_eqb (id, r) c cbs) (acc ++ [(r, d_reading rd)])%list (s, s)) as (ps & Q & P). rewrite Q.
      exists ((r, d_reading rd) :: ps). rewrite <- app_assoc. split; [reflexivity|]. constructor; [|assumption]. simpl. rewrite R. auto.
    + destruct (IH K' (set key_eqb (id, r) c cbs) (acc ++ [(r, d_reading rd)])%list (s, b)) as (ps & Q & P). rewrite Q.
      exists ((r, d_reading rd) :: ps). rewrite <- app_assoc. split; [reflexivity|]. constructor; [|assumption]. simpl. rewrite R. auto.
Qed.

Lemma form_payloads_cases id rds l : forall cbs acc last,
  (exists ds, Forall2 demands l ds /\ Forall (fun d => exists t, described rds (m_rid d) t) ds) \/
  (exists cbs', form_payloads id rds l cbs acc last = (cbs', Raise TypeError)).
Proof.
  induction l as [|e l IH]; intros cbs acc last; [left; exists []; split; constructor|].
  assert (G : forall d, demands e d ->
    (exists ds, Forall2 demands (e :: l) ds /\ Forall (fun d => exists t, described rds (m_rid d) t) ds) \/
    (exists cbs', form_payloads id rds (e :: l) cbs acc last = (cbs', Raise TypeError))).
  { intros d D. destruct (find_desc (m_rid d) rds) as [rd|] eqn:F.
    - assert (T : exists t, described rds (m_rid d) t) by (exists (d_reading rd); apply find_desc_iff; eauto).
      destruct D as [r c s|r c s b]; cbn [form_payloads m_rid] in *; rewrite F.
      + destruct (IH (set key_eqb (id, r) c cbs) (acc ++ [(r, d_reading rd)])%list (s, s)) as [(ds & A & B)|H]; [|now right].
        left. exists (mk_demand r c s s :: ds). split; constructor; auto. constructor.
      + destruct (IH (set key_eqb (id, r) c cbs) (acc ++ [(r, d_reading rd)])%list (s, b)) as [(ds & A & B)|H]; [|now right].
        left. exists (mk_demand r c s b :: ds). split; constructor; auto. constructor.
    - right. destruct D as [r c s|r c s b]; cbn [form_payloads m_rid] in *; rewrite F; eauto. }
  destruct e as [|x|]; try (right; eexists; reflexivity).
  destruct x as [|a x]; [right; eexists; reflexivity|]. destruct a as [| |r]; try (right; eexists; reflexivity).
  destruct x as [|b x]; [right; eexists; reflexivity|]. destruct b as [c| |]; try (right; eexists; reflexivity).
  destruct x as [|s x]; [right; eexists; reflexivity|]. destruct s as [|s|]; try (right; eexists; reflexivity).
  destruct x as [|b x]; [eapply G; constructor|]. destruct b as [|b|]; try (right; eexists; reflexivity).
  destruct x as [|y x]; [eapply G; constructor|]. right; eexists; reflexivity.
Qed.

Fixpoint store_all (fresh : nat -> string) (i : nat) (dss : list (list demand)) (cbs : callbacks) : callbacks :=
  match dss with [] => cbs | ds :: r => store_all fresh (S i) r (store (fresh i) ds cbs) end.

Lemma skip_iff es : ((length (map validate_entry es) =? 0)%nat || forallb is_none (map validate_entry es))%bool = true <-> Forall (fun e => ~ well_formed e) es.
Proof.
  rewrite orb_true_iff, forallb_forall, Forall_forall. split.
  - intros [H|H] e I.
    + apply Nat.eqb_eq in H. destruct es; [contradiction|discriminate].
    + apply validate_none, H. now apply in_map.
  - intros H. right. intros x I. apply in_map_iff in I as (e & <- & I). apply validate_none. auto.
Qed.

Lemma final_last l d last : final (l ++ [d]) last = (m_sampling d, m_back d).
Proof. unfold final. now rewrite fold_left_app. Qed.

Lemma form_none fresh i report es : forall r a cbs x,
  map validate_entry (entries x) = map validate_entry es ->
  form fresh i (report :: r) (option_map (map validate_entry) x :: a) cbs =
  form fresh i (report :: r) (Some (map validate_entry es) :: a) cbs.
Proof.
  intros r a cbs x V. destruct x as [l|]; simpl in V; cbn [option_map].
  - now rewrite V.
  - symmetry in V. apply map_eq_nil in V. subst es. reflexivity.
Qed.

Lemma form_ok fresh reports : forall i xs ess dss cbs,
  Forall2 (fun x es => map validate_entry (entries x) = map validate_entry es) xs ess ->
  Forall2 (fun r p => clear r (fst p) (snd p)) reports (combine ess dss) -> length ess = length dss ->
  exists qs, form fresh i reports (validate_report_request_tuples xs) cbs = (store_all fresh i dss cbs, Ok qs) /\ expected fresh i reports dss qs.
Proof.
  induction reports as [|r rs IH]; intros i xs ess dss cbs V C L.
  - inversion C as [E|]; subst. destruct ess as [|? ?]; [|destruct dss; [discriminate L|discriminate]]. destruct dss; [|discriminate].
    inversion V; subst. exists []. split; [reflexivity|constructor].
  - destruct ess as [|es ess]; [inversion C|]. destruct dss as [|ds dss]; [discriminate|]. simpl in C. inversion C as [|? ? ? ? C1 C2]; subst. simpl in C1.
    inversion V as [|x ? xs' ? V1 V2]; subst. simpl in L. injection L as L.
    cbn [validate_report_request_tuples map]. rewrite (form_none fresh i r es) by assumption. cbn [form]. fold (validate_report_request_tuples xs').
    destruct C1 as [(-> & N)|(NE & D & K)].
    + apply skip_iff in N. rewrite N. destruct (IH (S i) xs' ess dss cbs V2 C2 L) as (qs & Q & X). rewrite Q. exists qs. split; [reflexivity|now constructor].
    + destruct ((length (map validate_entry es) =? 0)%nat || forallb is_none (map validate_entry es))%bool eqn:B.
      { exfalso. apply skip_iff in B. destruct D as [|e d es ds D1 D2]; [congruence|]. apply (Forall_inv B). eapply demands_wf; eassumption. }
      destruct (form_payloads_ok (fresh i) (o_descs r) _ ds (proj2 (Forall2_demands_validate es ds) D) K cbs [] (0, 0)) as (ps & Q & P). rewrite Q.
      destruct (IH (S i) xs' ess dss (store (fresh i) ds cbs) V2 C2 L) as (qs & Q2 & X).
      destruct (exists_last NE) as (l & d & E). assert (FE : final ds (0, 0) = (m_sampling d, m_back d)) by (rewrite E; apply final_last). rewrite FE, Q2. cbn [bind app]. eexists. split; [reflexivity|].
      constructor; [assumption| |exists l, d; auto|assumption]. split; [reflexivity|]. split; [reflexivity|exact P].
Qed.

Lemma form_raise fresh reports : forall i xs ess cbs,
  Forall2 (fun x es => map validate_entry (entries x) = map validate_entry es) xs ess -> length ess = length reports ->
  (exists r es, In (r, es) (combine reports ess) /\ forall ds, ~ clear r es ds) ->
  exists cbs', form fresh i reports (validate_report_request_tuples xs) cbs = (cbs', Raise TypeError).
Proof.
  induction reports as [|r rs IH]; intros i xs ess cbs V L (r0 & es0 & I & N).
  - contradiction.
  - destruct ess as [|es ess]; [contradiction|]. inversion V as [|x ? xs' ? V1 V2]; subst. simpl in L. injection L as L.
    cbn [validate_report_request_tuples map]. rewrite (form_none fresh i r es) by assumption. cbn [form]. fold (validate_report_request_tuples xs').
    assert (Rest : In (r0, es0) (combine rs ess) -> forall cbs, exists cbs', form fresh (S i) rs (validate_report_request_tuples xs') cbs = (cbs', Raise TypeError)).
    { intros J cbs1. eapply IH; eauto. }
    destruct ((length (map validate_entry es) =? 0)%nat || forallb is_none (map validate_entry es))%bool eqn:B.
    + apply Rest. destruct I as [E|J]; [|assumption]. injection E as <- <-. exfalso. apply (N []). left. split; [reflexivity|now apply skip_iff].
    + destruct (form_payloads_cases (fresh i) (o_descs r) (map validate_entry es) cbs [] (0, 0)) as [(ds & D & K)|(cbs' & Q)].
      2:{ rewrite Q. eauto. }
      assert (NE : ds <> []).
      { intros ->. inversion D as [E|]. symmetry in E. apply map_eq_nil in E. subst es. discriminate. }
      destruct (form_payloads_ok (fresh i) (o_descs r) _ ds D K cbs [] (0, 0)) as (ps & Q & P). rewrite Q.
      destruct I as [E|J].
      * injection E as <- <-. exfalso. apply (N ds). right. split; [assumption|]. split; [now apply Forall2_demands_validate|assumption].
      * destruct (final ds (0, 0)) as [s b]. destruct (Rest J (store (fresh i) ds cbs)) as (cbs' & Q2). rewrite Q2. cbn [bind]. eauto.
Qed.

(** ** The stored callbacks *)
Lemma key_eqb_eq a b : key_eqb a b = true <-> a = b.
Proof.
  unfold key_eqb. rewrite andb_true_iff, String.eqb_eq, scalar_eqb_eq. destruct a, b; simpl. split; [intros [-> ->]; reflexivity|intros E; injection E as -> ->; auto].
Qed.

Lemma store_other id ds : forall cbs key, (fst key <> id \/ ~ In (snd key) (map m_rid ds)) -> get key_eqb key (store id ds cbs) = get key_eqb key cbs.
Proof.
  induction ds as [|d ds IH]; intros cbs key N; [reflexivity|]. unfold store. cbn [fold_left]. fold (store id ds (set key_eqb (id, m_rid d) (m_callback d) cbs)).
  rewrite IH by (simpl in N; tauto). apply get_set_other; [exact key_eqb_eq|]. intros ->. simpl in N. tauto.
Qed.

Lemma store_registers id ds cbs key c : registers id ds key c -> get key_eqb key (store id ds cbs) = Some c.
Proof.
  intros (E & l1 & d & l2 & -> & R & C & N). unfold store. rewrite fold_left_app. cbn [fold_left]. fold (store id l1 cbs). fold (store id l2 (set key_eqb (id, m_rid d) (m_callback d) (store id l1 cbs))).
  rewrite store_other by now right. destruct key as [k r]. simpl in *. subst. apply get_set_same. exact key_eqb_eq.
Qed.

Lemma registers_exists id ds r : In r (map m_rid ds) -> exists c, registers id ds (id, r) c.
Proof.
  induction ds as [|d ds IH]; intros I; [contradiction|].
  destruct (in_dec scalar_eq_dec r (map m_rid ds)) as [J|J].
  - destruct (IH J) as (c & _ & l1 & d' & l2 & -> & H). exists c. split; [reflexivity|]. exists (d :: l1), d', l2. auto.
  - destruct I as [E|I]; [|contradiction]. exists (m_callback d). split; [reflexivity|]. exists [], d, ds. auto.
Qed.

Lemma store_all_other fresh dss : forall i cbs key,
  (forall k ds c, nth_error dss k = Some ds -> ~ registers (fresh (i + k)%nat) ds key c) -> get key_eqb key (store_all fresh i dss cbs) = get key_eqb key cbs.
Proof.
  induction dss as [|ds dss IH]; intros i cbs key N; [reflexivity|]. cbn [store_all]. rewrite IH.
  - apply store_other. destruct (string_dec (fst key) (fresh i)) as [E|]; [|now left]. right. intros I.
    destruct (registers_exists (fresh i) ds (snd key) I) as (c & R). apply (N 0%nat ds c eq_refl). rewrite Nat.add_0_r. destruct key; simpl in *; subst. exact R.
  - intros k ds' c E. specialize (N (S k) ds' c E). now rewrite Nat.add_succ_r in N.
Qed.

Lemma store_all_registers fresh (INJ : forall a b, fresh a = fresh b -> a = b) dss : forall i cbs key k ds c,
  nth_error dss k = Some ds -> registers (fresh (i + k)%nat) ds key c -> get key_eqb key (store_all fresh i dss cbs) = Some c.
Proof.
  induction dss as [|ds0 dss IH]; intros i cbs key [|k] ds c E R; try discriminate; cbn [store_all].
  - injection E as ->. rewrite Nat.add_0_r in R. rewrite store_all_other; [now apply store_registers|].
    intros k ds' c' E' [R' _]. destruct R as [R _]. rewrite R in R'. apply INJ in R'. lia.
  - apply (IH (S i) _ key k ds c E). simpl. now rewrite <- Nat.add_succ_r.
Qed.

(** ** Updates *)
Lemma grouped_spec l : forall g, NoDup (map fst g) -> (forall r x, In (r, x) g -> x <> []) ->
  let h := fold_left (fun g ri => set scalar_eqb (ri_rid ri) ((match get scalar_eqb (ri_rid ri) g with Some x => x | None => [] end) ++ [ri])%list g) l g in
  NoDup (map fst h) /\ (forall r, In r (map fst h) <-> In r (map fst g) \/ In r (map ri_rid l)) /\
  (forall r x, In (r, x) h -> x = ((match get scalar_eqb r g with Some y => y | None => [] end) ++ filter (fun ri => if scalar_eq_dec (ri_rid ri) r then true else false) l)%list).
Proof.
  induction l as [|ri l IH]; intros g ND NE.
  - simpl. split; [assumption|]. split; [tauto|]. intros r x I. rewrite (in_get_nodup scalar_eqb scalar_eqb_eq r x g ND I). now rewrite app_nil_r.
  - cbn [fold_left]. set (g' := set scalar_eqb (ri_rid ri) _ g).
    assert (ND' : NoDup (map fst g')) by (apply (nodup_set scalar_eqb scalar_eqb_eq); assumption).
    destruct (IH g' ND') as (A & B & C).
    { intros r x I. unfold g' in I. apply (in_get_nodup scalar_eqb scalar_eqb_eq r x _ ND') in I. unfold g' in I. rewrite (get_set scalar_eqb scalar_eqb_eq) in I.
      destruct (scalar_eqb r (ri_rid ri)); [injection I as <-; now destruct (match get scalar_eqb (ri_rid ri) g with Some x0 => x0 | None => [] end)|].
      eapply NE. eapply (get_in scalar_eqb scalar_eqb_eq); eassumption. }
    cbv zeta in *. split; [exact A|]. split.
    + intros r. rewrite B. unfold g'. pose proof (keys_set_in scalar_eqb scalar_eqb_eq r (ri_rid ri) (match get scalar_eqb (ri_rid ri) g with Some x => x | None => [] end ++ [ri])%list g) as K. unfold keys in K. rewrite K. simpl. intuition congruence.
    + intros r x I. rewrite (C r x I). unfold g'. rewrite (get_set scalar_eqb scalar_eqb_eq). simpl.
      destruct (scalar_eq_dec (ri_rid ri) r) as [<-|N].
      * rewrite scalar_eqb_refl. now rewrite <- app_assoc.
      * destruct (scalar_eqb r (ri_rid ri)) eqn:E; [apply scalar_eqb_eq in E; congruence|]. reflexivity.
Qed.

Lemma deliveries_spec cbs report : NoDup (map fst cbs) -> cbs <> [] -> delivers cbs report (deliveries cbs report).
Proof.
  intros ND NE. destruct (grouped_spec (rc_intervals report) []) as (A & B & C); [constructor|intros ? ? []|].
  change (fold_left _ (rc_intervals report) []) with (group_intervals (rc_intervals report)) in A, B, C.
  unfold deliveries. destruct cbs as [|c0 cbs0] eqn:EC; [congruence|]. rewrite <- EC in *. clear EC c0 cbs0.
  set (g := group_intervals (rc_intervals report)) in *.
  exists (map fst (filter (fun p => mem key_eqb (rc_request report, fst p) cbs) g)). split; [|split].
  - clear - A. induction g as [|[r x] g IH]; simpl; [constructor|]. inversion A; subst. destruct (mem _ _ _); simpl; [|auto].
    constructor; [|auto]. intros I. apply H1. apply in_map_iff in I as (p & <- & I). apply filter_In in I as [I _]. now apply in_map.
  - intros r. rewrite in_map_iff. split.
    + intros ([r' x] & E & I). simpl in E. subst r'. apply filter_In in I as [I M]. simpl in M. split.
      * assert (J : In r (map fst g)) by (change r with (fst (r, x)); now apply in_map). apply B in J as [[]|J]. exact J.
      * unfold mem in M. destruct (get key_eqb (rc_request report, r) cbs) as [c|] eqn:G; [|discriminate]. exists c. eapply get_in; [exact key_eqb_eq|exact G].
    + intros [I (c & J)]. assert (K : In r (map fst g)) by (apply B; now right). apply in_map_iff in K as ([r' x] & E & K). simpl in E. subst r'.
      exists (r, x). split; [reflexivity|]. apply filter_In. split; [assumption|]. simpl. unfold mem. now rewrite (in_get_nodup key_eqb key_eqb_eq _ _ _ ND J).
  - clear A B. induction g as [|[r x] g IH]; cbn [flat_map filter map]; [constructor|].
    assert (IH' := IH (fun r x I => C r x (or_intror I))). cbn [fst]. unfold mem.
    destruct (get key_eqb (rc_request report, r) cbs) as [c|] eqn:G; cbn [map app fst]; [|exact IH'].
    constructor; [|exact IH']. exists c. split; [eapply get_in; [exact key_eqb_eq|exact G]|]. unfold pairs_of. rewrite (C r x (or_introl eq_refl)). reflexivity.
Qed.

Lemma deliver_all_ok user l : (forall d, In d l -> user d = Ok tt) -> deliver_all user l = (l, Ok tt).
Proof.
  induction l as [|d l IH]; intros H; cbn [deliver_all]; [reflexivity|]. rewrite H by now left. rewrite IH; [reflexivity|]. intros; apply H; now right.
Qed.

Lemma deliver_all_prefix user l : exists rest, l = (fst (deliver_all user l) ++ rest)%list /\
  match snd (deliver_all user l) with
  | Ok _ => rest = [] /\ forall d, In d l -> exists u, user d = Ok u
  | Raise e => exists l1 d, fst (deliver_all user l) = (l1 ++ [d])%list /\ user d = Raise e /\ forall x, In x l1 -> exists u, user x = Ok u
  end.
Proof.
  induction l as [|d l IH]; cbn [deliver_all].
  - exists []. split; [reflexivity|]. split; [reflexivity|intros ? []].
  - destruct (user d) as [u|e] eqn:U.
    + destruct IH as (rest & E & H). destruct (deliver_all user l) as [ds x]. simpl in *. exists rest. split; [congruence|].
      destruct x as [u'|e'].
      * destruct H as [-> H]. split; [reflexivity|]. intros y [<-|I]; eauto.
      * destruct H as (l1 & d' & E' & Q & H). exists (d :: l1), d'. split; [simpl; congruence|]. split; [assumption|]. intros y [<-|I]; eauto.
    + exists l. split; [reflexivity|]. exists [], d. split; [reflexivity|]. split; [assumption|intros ? []].
Qed.
