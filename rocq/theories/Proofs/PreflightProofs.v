From Coq Require Import ZArith String List Bool Lia.
From Verif.Base Require Import Result Dict PyStr ListExtra.
From Verif.Model Require Import Objects Members Duration Measurements Preflight.
From Verif.Spec Require Import PathSpec PreflightSpec.
From Verif.Proofs Require Import MembersProofs.
Import ListNotations.
Local Open Scope string_scope.
Local Open Scope Z_scope.

(** ** One event at a time *)
Definition fix_currents (e : event_d) := set_pe_signals (map (fix_current (pe_status e)) (pe_signals e)) e.
Definition namespaces (e : event_d) := bind (mapM signal_namespace (pe_signals e)) (fun l => Ok (set_pe_signals l e)).
Definition prep_one (now : Z) (e : event_d) : result event_d :=
  bind (check_duration e) (fun e => bind (check_simple e) (fun _ =>
  bind (namespaces (fix_currents e)) (fun e => check_targets (fix_created now (fix_response e))))).

Definition prep_from (now : nat -> Z) (i : nat) (events : list event_d) : result (list event_d) :=
  bind (mapM check_duration events) (fun events =>
  bind (mapM check_simple events) (fun _ =>
  bind (mapM namespaces (map fix_currents events)) (fun events =>
  mapM check_targets (mapi (fun i => fix_created (now i)) i (map fix_response events))))).

Lemma prep_from_0 now l : preflight_distribute now l = prep_from now 0 l.
Proof. reflexivity. Qed.

Lemma prep_from_cons now i e l r : prep_from now i (e :: l) = Ok r <->
  exists e' l', r = e' :: l' /\ prep_one (now i) e = Ok e' /\ prep_from now (S i) l = Ok l'.
Proof.
  unfold prep_from, prep_one. simpl mapM.
  destruct (check_duration e) as [e1|x]; simpl; [|split; [discriminate|intros (? & ? & _ & H & _); discriminate]].
  destruct (mapM check_duration l) as [l1|x] eqn:D; simpl; [|split; [discriminate|intros (? & ? & _ & _ & H); discriminate]].
  destruct (check_simple e1) as [u|x]; simpl; [|split; [discriminate|intros (? & ? & _ & H & _); discriminate]].
  destruct (mapM check_simple l1) as [us|x]; simpl; [|split; [discriminate|intros (? & ? & _ & _ & H); discriminate]].
  destruct (namespaces (fix_currents e1)) as [e2|x]; simpl; [|split; [discriminate|intros (? & ? & _ & H & _); discriminate]].
  destruct (mapM namespaces (map fix_currents l1)) as [l2|x]; simpl; [|split; [discriminate|intros (? & ? & _ & _ & H); discriminate]].
  destruct (check_targets (fix_created (now i) (fix_response e2))) as [e3|x]; simpl; [|split; [discriminate|intros (? & ? & _ & H & _); discriminate]].
  destruct (mapM check_targets _) as [l3|x]; simpl; [|split; [discriminate|intros (? & ? & _ & _ & H); discriminate]].
  split.
  - intros H. injection H as <-. eauto.
  - intros (e' & l' & -> & A & B). congruence.
Qed.

Lemma prep_from_iff now l : forall i r, prep_from now i l = Ok r <->
  length r = length l /\ forall j e e', nth_error l j = Some e -> nth_error r j = Some e' -> prep_one (now (i + j)%nat) e = Ok e'.
Proof.
  induction l as [|e l IH]; intros i r.
  - simpl. split.
    + intros H. assert (r = []) by (vm_compute in H; congruence). subst. split; [reflexivity|]. intros [|j] ? ? H1; discriminate.
    + intros [L _]. destruct r; [reflexivity|discriminate].
  - rewrite prep_from_cons. split.
    + intros (e' & l' & -> & A & B). apply IH in B as [L B]. split; [simpl; congruence|].
      intros [|j] a a' H1 H2; simpl in *.
      * injection H1 as <-. injection H2 as <-. now rewrite Nat.add_0_r.
      * rewrite Nat.add_succ_r. eauto.
    + intros [L B]. destruct r as [|e' l']; [discriminate|]. exists e', l'. split; [reflexivity|]. split.
      * rewrite <- (Nat.add_0_r i) at 1. now apply B.
      * apply IH. split; [simpl in L; congruence|]. intros j a a' H1 H2.
        specialize (B (S j) a a' H1 H2). now rewrite Nat.add_succ_r in B.
Qed.

(** ** Durations *)
Lemma lasts_fun l t t' : lasts l t -> lasts l t' -> t = t'.
Proof. intros H. revert t'. induction H; intros t' H'; inversion H'; subst; [reflexivity|]. assert (d = d0) by congruence. f_equal; auto. Qed.

Lemma fold_add l : forall a, fold_left Z.add l a = a + fold_left Z.add l 0.
Proof. induction l as [|x l IH]; intros a; cbn [fold_left]; [lia|]. rewrite (IH (a + x)), (IH (0 + x)). lia. Qed.

Lemma signal_duration_lasts s t : signal_duration s = Ok t <-> lasts (ps_intervals s) t.
Proof.
  unfold signal_duration. destruct (mapM _ _) as [ds|x] eqn:M; cbn [bind].
  - apply mapM_ok in M. assert (L : lasts (ps_intervals s) (fold_left Z.add ds 0)).
    { induction M as [|i d l ds H M IH]; [constructor|]. cbn [fold_left]. rewrite fold_add.
      replace (0 + d + fold_left Z.add ds 0) with (d + fold_left Z.add ds 0) by lia. now constructor. }
    split; [intros H; injection H as <-; assumption|]. intros H. f_equal. eapply lasts_fun; eassumption.
  - split; [discriminate|]. intros H. exfalso. clear - M H. revert x M. induction H; intros x M; simpl in M; [discriminate|].
    rewrite H in M. cbn [bind] in M. destruct (mapM _ l) as [?|y] eqn:E; cbn [bind] in M; [discriminate|]. eapply IHlasts; reflexivity.
Qed.

Lemma dur_is_iff d a : dur_is d a = true <-> a = DTd d.
Proof. destruct a; simpl; [rewrite Z.eqb_eq|..]; split; congruence. Qed.

Definition same_durations (e : event_d) : Prop :=
  (forall s, In s (pe_signals e) -> exists t, lasts (ps_intervals s) t) /\
  (forall s s' t t', In s (pe_signals e) -> In s' (pe_signals e) -> lasts (ps_intervals s) t -> lasts (ps_intervals s') t' -> t = t').

Definition duration_ok (e : event_d) (d : dur_arg) : Prop :=
  (pe_signals e = [] -> d = pe_duration e) /\ (forall s t, In s (pe_signals e) -> lasts (ps_intervals s) t -> d = DTd t).

Lemma signal_durations_F2 e ds : mapM signal_duration (pe_signals e) = Ok ds <-> Forall2 (fun s t => lasts (ps_intervals s) t) (pe_signals e) ds.
Proof.
  rewrite mapM_ok. split; intros H; eapply Forall2_impl; try eassumption; intros a b; apply signal_duration_lasts.
Qed.

Lemma F2_in_l {A B} (P : A -> B -> Prop) l m : Forall2 P l m -> forall a, In a l -> exists b, In b m /\ P a b.
Proof. induction 1; intros a I; [contradiction|]. destruct I as [<-|I]; [exists y; split; [now left|assumption]|]. destruct (IHForall2 a I) as (b & J & K). exists b. split; [now right|assumption]. Qed.
Lemma F2_in_r {A B} (P : A -> B -> Prop) l m : Forall2 P l m -> forall b, In b m -> exists a, In a l /\ P a b.
Proof. induction 1; intros a I; [contradiction|]. destruct I as [<-|I]; [exists x; split; [now left|assumption]|]. destruct (IHForall2 a I) as (b & J & K). exists b. split; [now right|assumption]. Qed.

Lemma set_pe_duration_id e : set_pe_duration (pe_duration e) e = e.
Proof. destruct e; reflexivity. Qed.

Lemma check_duration_ok e e' : check_duration e = Ok e' <->
  same_durations e /\ exists d, duration_ok e d /\ e' = set_pe_duration d e.
Proof.
  unfold check_duration. destruct (mapM signal_duration (pe_signals e)) as [ds|x] eqn:M; cbn [bind].
  - apply signal_durations_F2 in M.
    destruct (forallb (fun d => dur_is d (pe_duration e)) ds) eqn:A.
    + rewrite forallb_forall in A.
      assert (AD : forall s t, In s (pe_signals e) -> lasts (ps_intervals s) t -> pe_duration e = DTd t).
      { intros s t I L. destruct (F2_in_l _ _ _ M s I) as (t' & J & L'). rewrite (lasts_fun _ _ _ L L'). apply dur_is_iff. auto. }
      split.
      * intros H. injection H as <-. split; [split|].
        -- intros s I. destruct (F2_in_l _ _ _ M s I) as (t & _ & L). eauto.
        -- intros s s' t t' I I' L L'. pose proof (AD s t I L). pose proof (AD s' t' I' L'). congruence.
        -- exists (pe_duration e). split; [split; [reflexivity|assumption]|]. symmetry. apply set_pe_duration_id.
      * intros (_ & d & [D1 D2] & ->). f_equal. destruct (pe_signals e) as [|s l] eqn:Es.
        -- rewrite D1 by reflexivity. symmetry. apply set_pe_duration_id.
        -- destruct (F2_in_l _ _ _ M s (or_introl eq_refl)) as (t & _ & L).
           rewrite (D2 s t (or_introl eq_refl) L), <- (AD s t (or_introl eq_refl) L). symmetry. apply set_pe_duration_id.
    + destruct ds as [|d0 ds]; [discriminate|].
      destruct (forallb (fun d => d =? d0) (d0 :: ds)) eqn:B.
      * rewrite forallb_forall in B.
        assert (AD : forall s t, In s (pe_signals e) -> lasts (ps_intervals s) t -> t = d0).
        { intros s t I L. destruct (F2_in_l _ _ _ M s I) as (t' & J & L'). rewrite (lasts_fun _ _ _ L L'). apply Z.eqb_eq. auto. }
        destruct (pe_signals e) as [|s l] eqn:Es; [inversion M|].
        split.
        -- intros H. injection H as <-. split; [split; rewrite Es|].
           ++ intros s' I. destruct (F2_in_l _ _ _ M s' I) as (t & _ & L). eauto.
           ++ intros s1 s2 t t' I I' L L'. rewrite (AD _ _ I L), (AD _ _ I' L'). reflexivity.
           ++ exists (DTd d0). split; [split; rewrite Es; [discriminate|]|reflexivity]. intros s' t I L. now rewrite (AD _ _ I L).
        -- intros (_ & d & [D1 D2] & ->). f_equal. f_equal.
           destruct (F2_in_l _ _ _ M s (or_introl eq_refl)) as (t & _ & L). rewrite Es in D2.
           rewrite (D2 s t (or_introl eq_refl) L), (AD s t (or_introl eq_refl) L). reflexivity.
      * split; [discriminate|]. intros ([_ S] & _). exfalso.
        assert (forallb (fun d => d =? d0) (d0 :: ds) = true); [|congruence].
        apply forallb_forall. intros d I. apply Z.eqb_eq.
        destruct (F2_in_r _ _ _ M d I) as (s & J & L). destruct (F2_in_r _ _ _ M d0 (or_introl eq_refl)) as (s0 & J0 & L0).
        exact (S _ _ _ _ J J0 L L0).
  - split; [discriminate|]. intros ([E _] & _). exfalso.
    assert (G : exists ds, Forall2 (fun s t => lasts (ps_intervals s) t) (pe_signals e) ds).
    { clear - E. induction (pe_signals e) as [|s l IH]; [exists []; constructor|].
      destruct (E s (or_introl eq_refl)) as (t & L). destruct IH as (ds & F); [intros; apply E; now right|].
      exists (t :: ds). now constructor. }
    destruct G as (ds & F). apply signal_durations_F2 in F. congruence.
Qed.

(** ** Payloads and current values *)
Lemma eq_int_iff v n : eq_int v n = true <-> equals v n.
Proof. destruct v; simpl; [split; [discriminate|tauto]|..]; try (rewrite Z.eqb_eq; (split; congruence) || reflexivity). split; [discriminate|tauto]. Qed.

Lemma level_iff v : existsb (eq_int v) [0; 1; 2; 3] = true <-> level v.
Proof.
  unfold level. rewrite <- !eq_int_iff. cbn [existsb]. rewrite !orb_true_iff. intuition discriminate.
Qed.

Lemma check_simple_ok e : check_simple e = Ok tt <->
  forall s i, In s (pe_signals e) -> simple s -> In i (ps_intervals s) -> level (pi_payload i).
Proof.
  unfold check_simple. match goal with |- (if ?b then _ else _) = _ <-> _ => destruct b eqn:F end.
  - split; [intros _|reflexivity]. rewrite forallb_forall in F. intros s i I S J. specialize (F s I).
    unfold simple in S. rewrite S, String.eqb_refl in F. simpl in F. rewrite forallb_forall in F. apply level_iff. exact (F i J).
  - split; [discriminate|]. intros H. exfalso. apply not_true_iff_false in F. apply F. apply forallb_forall. intros s I.
    destruct (String.eqb_spec (ps_name s) "SIMPLE") as [S|]; [|reflexivity]. simpl. apply forallb_forall. intros i J. apply level_iff. eauto.
Qed.

Lemma fix_current_prepared status s : let s' := fix_current status s in
  ps_intervals s' = ps_intervals s /\ ps_name s' = ps_name s /\ ps_type s' = ps_type s /\ ps_id s' = ps_id s /\
  ps_targets s' = ps_targets s /\ ps_measurement s' = ps_measurement s /\
  (~ simple s \/ status = "ACTIVE" \/ ps_current s = None \/ (exists v, ps_current s = Some v /\ equals v 0) -> ps_current s' = ps_current s) /\
  (forall v, simple s -> status <> "ACTIVE" -> ps_current s = Some v -> ~ equals v 0 -> ps_current s' = Some (SInt 0)).
Proof.
  intros s'. unfold s', fix_current, simple. destruct (ps_current s) as [v|] eqn:C.
  - destruct (eq_int v 0) eqn:Z0; cbn [negb andb].
    + apply eq_int_iff in Z0. repeat (split; [reflexivity|]). split; [intros _; exact C|]. intros w _ _ H N. injection H as <-. contradiction.
    + assert (NZ : ~ equals v 0) by (rewrite <- eq_int_iff; congruence).
      destruct (String.eqb_spec (ps_name s) "SIMPLE") as [S|S]; cbn [andb];
      [destruct (String.eqb_spec status "ACTIVE") as [A|A]; cbn [negb]|];
      repeat (split; [reflexivity|]).
      * split; [intros _; exact C|]. intros w _ H. contradiction.
      * split; [|intros; reflexivity]. intros [H|[H|[H|(w & H & E)]]]; [contradiction|contradiction|discriminate|]. injection H as <-. contradiction.
      * split; [intros _; exact C|]. intros w H. contradiction.
  - repeat (split; [reflexivity|]). split; [intros _; exact C|]. discriminate.
Qed.

(** ** Measurements *)
Lemma namespaces_get name ns : get String.eqb name measurement_namespaces = Some ns <-> In (name, ns) measurement_namespaces.
Proof.
  split; [apply (get_in String.eqb String.eqb_eq)|]. apply (in_get_nodup String.eqb String.eqb_eq).
  vm_compute. repeat constructor; simpl; intuition discriminate.
Qed.

Lemma add_namespace_ok m m' : add_namespace m = Ok m' <-> prepared_measurement m m'.
Proof.
  unfold add_namespace. split.
  - destruct (md_name m) as [name|] eqn:N; [|discriminate]. destruct (get _ _ _) as [ns|] eqn:G; [|discriminate].
    intros H. injection H as <-. apply namespaces_get in G. constructor; try reflexivity. exists name, ns. repeat split; assumption.
  - intros [E1 E2 E3 E4 E5 E6 (name & ns & [N I] & S)]. rewrite N. apply namespaces_get in I. rewrite I.
    unfold set_md_ns; destruct m, m'; simpl in *; congruence.
Qed.

Lemma add_namespace_known m : (exists m', add_namespace m = Ok m') <-> exists name ns, known m name ns.
Proof.
  split.
  - intros (m' & H). apply add_namespace_ok in H. destruct (pm_ns _ _ H) as (name & ns & K & _). eauto.
  - intros (name & ns & N & I). unfold add_namespace. rewrite N. apply namespaces_get in I. rewrite I. eauto.
Qed.

Definition ns_ok (s s' : signal_d) : Prop :=
  match ps_measurement s, ps_measurement s' with None, None => True | Some m, Some m' => prepared_measurement m m' | _, _ => False end.

Lemma signal_namespace_ok s s' : signal_namespace s = Ok s' <-> exists x, s' = set_ps_measurement x s /\
  match ps_measurement s, x with None, None => True | Some m, Some m' => prepared_measurement m m' | _, _ => False end.
Proof.
  unfold signal_namespace. destruct (ps_measurement s) as [m|] eqn:E.
  - destruct (add_namespace m) as [m'|x] eqn:A; cbn [bind].
    + split.
      * intros H. injection H as <-. exists (Some m'). split; [reflexivity|]. now apply add_namespace_ok.
      * intros (x & -> & P). destruct x as [m2|]; [|contradiction]. apply add_namespace_ok in P. congruence.
    + split; [discriminate|]. intros (y & _ & P). destruct y as [m2|]; [|contradiction]. apply add_namespace_ok in P. congruence.
  - split.
    + intros H. injection H as <-. exists None. split; [|exact I]. destruct s; simpl in *; subst; reflexivity.
    + intros (x & -> & P). destruct x; [contradiction|]. f_equal. destruct s; simpl in *; subst; reflexivity.
Qed.

Lemma signal_steps status s s' : signal_namespace (fix_current status s) = Ok s' <-> prepared_signal status s s'.
Proof.
  destruct (fix_current_prepared status s) as (I & N & T & D & G & M & K & Z0). rewrite signal_namespace_ok, M. split.
  - intros (x & -> & P). constructor; simpl; try assumption.
  - intros [A1 A2 A3 A4 A5 A6 A7 A8]. exists (ps_measurement s'). split; [|exact A8].
    assert (C : ps_current s' = ps_current (fix_current status s)).
    { destruct (string_dec (ps_name s) "SIMPLE") as [S|S]; [|rewrite A6, K; auto].
      destruct (string_dec status "ACTIVE") as [E|E]; [rewrite A6, K; auto|].
      destruct (ps_current s) as [v|] eqn:C; [|rewrite A6, K; auto].
      destruct (eq_int v 0) eqn:Q; [apply eq_int_iff in Q; rewrite A6, K by (right; right; right; exists v; split; [reflexivity|assumption]); reflexivity|].
      assert (~ equals v 0) by (intros X; apply eq_int_iff in X; rewrite X in Q; discriminate). rewrite (A7 v), (Z0 v); auto. }
    destruct s' as [x1 x2 x3 x4 x5 x6 x7], (fix_current status s) as [y1 y2 y3 y4 y5 y6 y7]; simpl in *. unfold set_ps_measurement; simpl. congruence.
Qed.

Lemma namespaces_ok e e' : namespaces (fix_currents e) = Ok e' <->
  exists l, Forall2 (prepared_signal (pe_status e)) (pe_signals e) l /\ e' = set_pe_signals l e.
Proof.
  unfold namespaces, fix_currents. cbn [pe_signals set_pe_signals].
  assert (F : forall l, mapM signal_namespace (map (fix_current (pe_status e)) (pe_signals e)) = Ok l <->
                        Forall2 (prepared_signal (pe_status e)) (pe_signals e) l).
  { intros l. rewrite mapM_ok. rewrite Forall2_map_l. split; intros H; eapply Forall2_impl; try eassumption; intros a b; apply signal_steps. }
  destruct (mapM signal_namespace _) as [l|x]; cbn [bind].
  - split; [intros H; injection H as <-; exists l; split; [now apply F|reflexivity]|].
    intros (l' & P & ->). apply F in P. injection P as ->. reflexivity.
  - split; [discriminate|]. intros (l' & P & _). apply F in P. discriminate.
Qed.

(** ** Targets *)
Lemma grouped_get ts k : get String.eqb k (group_targets_by_type ts) =
  match target_values k ts with [] => None | l => Some l end.
Proof.
  pose proof (group_targets_grouping ts) as G. pose proof G as [KS VS].
  destruct (get String.eqb k (group_targets_by_type ts)) as [l|] eqn:E.
  - apply (get_in String.eqb String.eqb_eq) in E. pose proof (VS k l E) as V. change (l = target_values k ts) in V.
    pose proof (grouping_nonempty string_dec (target_pairs ts) _ k _ G E) as NE. rewrite V in *. destruct (target_values k ts); [now elim NE|reflexivity].
  - apply (get_none_iff String.eqb String.eqb_eq) in E. unfold keys in E. rewrite KS, occurrences_In in E.
    unfold target_values. rewrite filter_none; [reflexivity|]. intros [k' v] I. simpl. destruct (string_dec k k') as [->|]; [|reflexivity].
    exfalso. apply E. change k' with (fst (k', v)). now apply in_map.
Qed.

Lemma grouped_NoDup ts : NoDup (map fst (group_targets_by_type ts)).
Proof. destruct (group_targets_grouping ts) as [-> _]. apply occurrences_NoDup. Qed.

Lemma target_values_no_none k ts : ~ In SNone (target_values k ts).
Proof.
  unfold target_values, target_pairs. intros I. apply in_map_iff in I as ([k' v] & E & I). apply filter_In in I as [I _]. apply filter_In in I as [_ I].
  simpl in *. subst. destruct (scalar_eq_dec SNone SNone); [discriminate|contradiction].
Qed.

Lemma listed_canonical l : ~ In SNone l -> listed (TList l) = l.
Proof. intros N. simpl. apply filter_all. intros a I. destruct (scalar_eq_dec a SNone); [subst; contradiction|reflexivity]. Qed.

Lemma tbt_eqb_iff ts tbt : NoDup (map fst tbt) -> (tbt_eqb (group_targets_by_type ts) tbt = true <-> agree ts tbt /\ canonical tbt).
Proof.
  intros ND. unfold tbt_eqb. rewrite andb_true_iff, Nat.eqb_eq, forallb_forall. pose proof (grouped_NoDup ts) as NG. split.
  - intros [L F].
    assert (Sub : forall k l, In (k, l) (group_targets_by_type ts) -> In (k, TList l) tbt).
    { intros k l I. specialize (F _ I). simpl in F. destruct (get String.eqb k tbt) as [v|] eqn:G; [|discriminate].
      destruct v; simpl in F; try discriminate. destruct (list_eq_dec _ _ _); [subst|discriminate]. now apply (get_in String.eqb String.eqb_eq). }
    assert (Inc : incl (map fst (group_targets_by_type ts)) (map fst tbt)).
    { intros k I. apply in_map_iff in I as ([k' l] & <- & I). apply Sub in I. cbn [fst]. change k' with (fst (k', TList l)). now apply in_map. }
    assert (Inc' : incl (map fst tbt) (map fst (group_targets_by_type ts))) by (apply (NoDup_length_incl NG); [rewrite !map_length; lia|assumption]).
    assert (Back : forall k v, In (k, v) tbt -> exists l, v = TList l /\ In (k, l) (group_targets_by_type ts)).
    { intros k v I. assert (J : In k (map fst (group_targets_by_type ts))) by (apply Inc'; change k with (fst (k, v)); now apply in_map).
      apply in_map_iff in J as ([k' l] & E & J). simpl in E. subst k'. exists l. split; [|assumption]. apply Sub in J.
      apply (in_get_nodup String.eqb String.eqb_eq) in J; [|assumption]. apply (in_get_nodup String.eqb String.eqb_eq) in I; [|assumption]. congruence. }
    assert (Val : forall k l, In (k, l) (group_targets_by_type ts) -> target_values k ts = l /\ l <> []).
    { intros k l J. apply (in_get_nodup String.eqb String.eqb_eq) in J; [|assumption]. rewrite grouped_get in J.
      destruct (target_values k ts); [discriminate|]. injection J as <-. split; [reflexivity|discriminate]. }
    split; [split|].
    + intros k v I. destruct (Back k v I) as (l & -> & J). destruct (Val _ _ J) as [<- _]. symmetry. apply listed_canonical, target_values_no_none.
    + intros k N. destruct (target_values k ts) as [|x r] eqn:E; [reflexivity|]. exfalso. apply N, Inc.
      assert (G : get String.eqb k (group_targets_by_type ts) = Some (x :: r)) by (rewrite grouped_get, E; reflexivity).
      apply (get_in String.eqb String.eqb_eq) in G. change k with (fst (k, x :: r)). now apply in_map.
    + intros k v I. destruct (Back k v I) as (l & -> & J). exists l. destruct (Val _ _ J) as [<- NE]. split; [reflexivity|]. split; [assumption|apply target_values_no_none].
  - intros [[A1 A2] C].
    assert (Sub : forall k l, In (k, l) (group_targets_by_type ts) -> In (k, TList l) tbt).
    { intros k l J. apply (in_get_nodup String.eqb String.eqb_eq) in J; [|assumption]. rewrite grouped_get in J.
      destruct (in_dec string_dec k (map fst tbt)) as [I|I]; [|rewrite (A2 k I) in J; discriminate].
      apply in_map_iff in I as ([k' v] & E & I). simpl in E. subst k'. rewrite (A1 k v I) in J. destruct (C k v I) as (l' & -> & NE & NN).
      rewrite listed_canonical in J by assumption. destruct l'; [contradiction|]. injection J as <-. assumption. }
    split.
    + apply Nat.le_antisymm.
      * rewrite <- (map_length fst), <- (map_length fst tbt). apply NoDup_incl_length; [assumption|].
        intros k I. apply in_map_iff in I as ([k' l] & <- & I). apply Sub in I. cbn [fst]. change k' with (fst (k', TList l)). now apply in_map.
      * rewrite <- (map_length fst), <- (map_length fst (group_targets_by_type ts)). apply NoDup_incl_length; [assumption|].
        intros k I. apply in_map_iff in I as ([k' v] & E & I). simpl in E. subst k'. destruct (C k v I) as (l' & -> & NE & NN).
        assert (G : get String.eqb k (group_targets_by_type ts) = Some l').
        { rewrite grouped_get, (A1 _ _ I), listed_canonical by assumption. destruct l'; [contradiction|reflexivity]. }
        apply (get_in String.eqb String.eqb_eq) in G. change k with (fst (k, l')). now apply in_map.
    + intros [k l] I. apply Sub in I. apply (in_get_nodup String.eqb String.eqb_eq) in I; [|assumption]. rewrite I. simpl.
      destruct (list_eq_dec scalar_eq_dec l l); [reflexivity|contradiction].
Qed.

Lemma ungroup_concat tbt : concat (ungroup_targets_by_type tbt) =
  flat_map (fun '(k, v) => map (pair k) (match v with TList l => l | TStr s => [SStr s] | TOther => [] end)) tbt.
Proof.
  induction tbt as [|[k v] r IH]; [reflexivity|]. simpl. rewrite concat_app, IH. f_equal.
  destruct v as [l|s|]; simpl; [|reflexivity..]. induction l as [|x l IHl]; simpl; congruence.
Qed.

Lemma singletons_eq (a b : list target) : Forall (fun t => length t = 1%nat) a -> Forall (fun t => length t = 1%nat) b -> concat a = concat b -> a = b.
Proof.
  intros F. revert b. induction F as [|x a Hx F IH]; intros b G E.
  - inversion G as [|y b' Hy G']; [reflexivity|]. subst. destruct y; simpl in *; discriminate.
  - inversion G as [|y b' Hy G']; subst; [destruct x; simpl in *; discriminate|].
    destruct x as [|p [|]]; simpl in Hx; try discriminate. destruct y as [|q [|]]; simpl in Hy; try discriminate.
    simpl in E. injection E as -> E. f_equal. auto.
Qed.

Lemma ungroup_spread tbt ts : spread tbt ts <-> ts = ungroup_targets_by_type tbt.
Proof.
  assert (F : Forall (fun t : target => length t = 1%nat) (ungroup_targets_by_type tbt)).
  { apply Forall_forall. intros t I. apply in_flat_map in I as ([k v] & _ & I). destruct v; simpl in I.
    - apply in_map_iff in I as (? & <- & _). reflexivity.
    - destruct I as [<-|[]]. reflexivity.
    - contradiction. }
  unfold spread. rewrite <- ungroup_concat. split.
  - intros [G E]. now apply singletons_eq.
  - intros ->. auto.
Qed.

Lemma filter_filter_swap {A} (p q : A -> bool) l : filter p (filter q l) = filter q (filter p l).
Proof. rewrite !filter_filter. apply filter_ext. intros a. apply andb_comm. Qed.

Lemma spread_agree tbt ts : NoDup (map fst tbt) -> spread tbt ts -> agree ts tbt.
Proof.
  intros ND [_ E].
  assert (V : forall k, target_values k ts = concat (map (fun '(k', v) => if string_dec k k' then listed v else []) tbt)).
  { intros k. unfold target_values, target_pairs. rewrite E. clear. induction tbt as [|[k' v] r IH]; [reflexivity|].
    cbn [flat_map map concat]. rewrite filter_app, filter_app, map_app, IH. f_equal.
    destruct (string_dec k k') as [->|N].
    - assert (Q : forall l, map snd (filter (fun p : string * scalar => if string_dec k' (fst p) then true else false)
               (filter (fun p : string * scalar => if scalar_eq_dec (snd p) SNone then false else true) (map (pair k') l))) =
               filter (fun x => if scalar_eq_dec x SNone then false else true) l).
      { induction l as [|x l IHl]; [reflexivity|]. cbn [map filter]. cbn [snd]. destruct (scalar_eq_dec x SNone); [exact IHl|].
        cbn [filter fst]. destruct (string_dec k' k'); [|contradiction]. cbn [map snd]. now rewrite IHl. }
      rewrite Q. destruct v as [l|s|]; reflexivity.
    - rewrite filter_filter_swap, (filter_none _ (map (pair k') _)); [reflexivity|].
      intros p I. apply in_map_iff in I as (x & <- & _). simpl. destruct (string_dec k k'); [contradiction|reflexivity]. }
  assert (Z0 : forall k l, ~ In k (map fst l) -> concat (map (fun '(k', v) => if string_dec k k' then listed v else []) l) = []).
  { intros k l N. induction l as [|[k' v] r IH]; [reflexivity|]. cbn [map concat]. destruct (string_dec k k') as [->|]; [exfalso; apply N; now left|].
    apply IH. intros I. apply N. now right. }
  split; intros k.
  - intros v I. rewrite V. clear V E. induction tbt as [|[k' v'] r IH]; [contradiction|]. simpl in ND. inversion ND as [|? ? NI ND']; subst.
    cbn [map concat]. destruct I as [I|I].
    + injection I as -> ->. destruct (string_dec k k); [|contradiction]. rewrite Z0 by assumption. apply app_nil_r.
    + destruct (string_dec k k') as [->|]; [exfalso; apply NI; change k' with (fst (k', v)); now apply in_map|]. auto.
  - intros N. rewrite V. now apply Z0.
Qed.

Definition targets_ok (e e' : event_d) : Prop :=
  (forall ts, pe_targets e = Some ts -> pe_targets e' = Some ts) /\
  (pe_targets e = None -> pe_tbt e = None -> pe_targets e' = None) /\
  (forall tbt, pe_targets e = None -> pe_tbt e = Some tbt -> exists ts, pe_targets e' = Some ts /\ spread tbt ts).

Lemma set_pe_targets_id e : set_pe_targets (pe_targets e) e = e.
Proof. destruct e; reflexivity. Qed.

Lemma check_targets_ok e e' : one_entry_each e ->
  (check_targets e = Ok e' <->
   (forall ts tbt, pe_targets e = Some ts -> pe_tbt e = Some tbt -> agree ts tbt /\ canonical tbt) /\
   targets_ok e e' /\ exists x, e' = set_pe_targets x e).
Proof.
  intros W. unfold check_targets, targets_ok.
  assert (Same : forall e', (exists x, e' = set_pe_targets x e) -> pe_targets e' = pe_targets e -> e' = e).
  { intros a (x & ->) H. cbn [pe_targets set_pe_targets] in H. rewrite H. apply set_pe_targets_id. }
  assert (Id : exists x, e = set_pe_targets x e) by (exists (pe_targets e); symmetry; apply set_pe_targets_id).
  destruct (pe_targets e) as [ts|] eqn:T, (pe_tbt e) as [tbt|] eqn:B.
  - destruct (tbt_eqb _ _) eqn:Q.
    + apply (tbt_eqb_iff ts tbt (W _ B)) in Q. split.
      * intros H. injection H as <-. split; [intros ? ? E1 E2; injection E1 as <-; injection E2 as <-; assumption|].
        split; [|assumption]. split; [congruence|]. split; [discriminate|discriminate].
      * intros (_ & (K & _) & X). f_equal. symmetry. apply Same; [assumption|]. apply K. reflexivity.
    + split; [discriminate|]. intros (H & _). specialize (H _ _ eq_refl eq_refl). apply (tbt_eqb_iff ts tbt (W _ B)) in H. congruence.
  - split.
    + intros H. injection H as <-. split; [discriminate|]. split; [|assumption]. split; [congruence|]. split; discriminate.
    + intros (_ & (K & _) & X). f_equal. symmetry. apply Same; [assumption|]. apply K. reflexivity.
  - split.
    + intros H. injection H as <-. split; [discriminate|]. split; [|eauto]. split; [discriminate|]. split; [discriminate|].
      intros tbt' _ E. injection E as <-. eexists. split; [reflexivity|]. now apply ungroup_spread.
    + intros (_ & (_ & _ & K) & (x & ->)). destruct (K tbt eq_refl eq_refl) as (ts & H & S). apply ungroup_spread in S. subst. cbn in H. subst. reflexivity.
  - split.
    + intros H. injection H as <-. split; [discriminate|]. split; [|assumption]. split; [discriminate|]. split; [congruence|discriminate].
    + intros (_ & (_ & K & _) & X). f_equal. symmetry. apply Same; [assumption|]. now apply K.
Qed.

(** ** The response and the creation time *)
Lemma fix_response_spec e : exists r, fix_response e = set_pe_response r e /\
  (pe_response e = Some "never" -> r = Some "never") /\ (pe_response e <> Some "never" -> r = Some "always").
Proof.
  unfold fix_response. destruct (pe_response e) as [r|] eqn:R.
  - unfold inb. cbn [existsb]. destruct (String.eqb_spec r "never") as [->|N]; cbn [orb].
    + exists (Some "never"). split; [destruct e; simpl in *; subst; reflexivity|]. split; [reflexivity|congruence].
    + destruct (String.eqb_spec r "always") as [->|N2]; cbn [orb].
      * exists (Some "always"). split; [destruct e; simpl in *; subst; reflexivity|]. split; [congruence|reflexivity].
      * exists (Some "always"). split; [reflexivity|]. split; [congruence|reflexivity].
  - exists (Some "always"). split; [reflexivity|]. split; [discriminate|reflexivity].
Qed.

Lemma fix_created_spec now e : exists r, fix_created now e = set_pe_created r e /\
  (forall t, pe_created e = Some t -> r = Some t) /\ (pe_created e = None -> r = Some now).
Proof.
  unfold fix_created. destruct (pe_created e) as [t|] eqn:C.
  - exists (Some t). split; [destruct e; simpl in *; subst; reflexivity|]. split; [auto|discriminate].
  - exists (Some now). split; [reflexivity|]. split; [discriminate|reflexivity].
Qed.

Lemma opt_string_dec (a b : option string) : {a = b} + {a <> b}.
Proof. decide equality. apply string_dec. Defined.

(** ** Everything together *)
Lemma prep_one_ok now e e' : one_entry_each e -> (prep_one now e = Ok e' <-> acceptable e /\ prepared now e e').
Proof.
  intros W. unfold prep_one.
  assert (Step : (exists d l r c, duration_ok e d /\ same_durations e /\
      (forall s i, In s (pe_signals e) -> simple s -> In i (ps_intervals s) -> level (pi_payload i)) /\
      Forall2 (prepared_signal (pe_status e)) (pe_signals e) l /\
      ((pe_response e = Some "never" -> r = Some "never") /\ (pe_response e <> Some "never" -> r = Some "always")) /\
      ((forall t, pe_created e = Some t -> c = Some t) /\ (pe_created e = None -> c = Some now)) /\
      check_targets (set_pe_created c (set_pe_response r (set_pe_signals l (set_pe_duration d e)))) = Ok e') <->
    bind (check_duration e) (fun e => bind (check_simple e) (fun _ => bind (namespaces (fix_currents e)) (fun e => check_targets (fix_created now (fix_response e))))) = Ok e').
  { split.
    - intros (d & l & r & c & D & SD & L & F & R & C & T).
      assert (E1 : check_duration e = Ok (set_pe_duration d e)) by (apply check_duration_ok; eauto). rewrite E1. cbn [bind].
      assert (E2 : check_simple (set_pe_duration d e) = Ok tt) by (apply check_simple_ok; exact L). rewrite E2. cbn [bind].
      assert (E3 : namespaces (fix_currents (set_pe_duration d e)) = Ok (set_pe_signals l (set_pe_duration d e))) by (apply namespaces_ok; eauto). rewrite E3. cbn [bind].
      destruct (fix_response_spec (set_pe_signals l (set_pe_duration d e))) as (r' & -> & R1 & R2). cbn [pe_response set_pe_signals set_pe_duration] in R1, R2.
      assert (r' = r) by (destruct (opt_string_dec (pe_response e) (Some "never")); [rewrite R1, (proj1 R) by assumption; reflexivity|rewrite R2, (proj2 R) by assumption; reflexivity]).
      subst r'.
      match goal with |- context [fix_created now ?x] => destruct (fix_created_spec now x) as (c' & -> & C1 & C2) end.
      cbn [pe_created set_pe_signals set_pe_duration set_pe_response] in C1, C2.
      assert (c' = c) by (destruct (pe_created e); [rewrite (C1 _ eq_refl), (proj1 C _ eq_refl)|rewrite C2, (proj2 C) by reflexivity]; reflexivity).
      subst. exact T.
    - intros H. destruct (check_duration e) as [e1|] eqn:E1; [|discriminate]. cbn [bind] in H.
      apply check_duration_ok in E1 as (SD & d & D & ->).
      destruct (check_simple (set_pe_duration d e)) as [[]|] eqn:E2; [|discriminate]. cbn [bind] in H. pose proof (proj1 (check_simple_ok _) E2) as E2'. clear E2. rename E2' into E2.
      destruct (namespaces (fix_currents (set_pe_duration d e))) as [e2|] eqn:E3; [|discriminate]. cbn [bind] in H. apply namespaces_ok in E3 as (l & F & ->).
      destruct (fix_response_spec (set_pe_signals l (set_pe_duration d e))) as (r & Er & R1 & R2). rewrite Er in H.
      match type of H with context [fix_created now ?x] => destruct (fix_created_spec now x) as (c & Ec & C1 & C2) end. rewrite Ec in H.
      exists d, l, r, c. repeat (split; [auto|]). exact H. }
  rewrite <- Step. clear Step. split.
  - intros (d & l & r & c & [D1 D2] & [S1 S2] & L & F & [R1 R2] & [C1 C2] & T).
    apply check_targets_ok in T as (A & (T1 & T2 & T3) & (x & ->)); [|exact W]. cbn in A, T1, T2, T3. split.
    + constructor; try assumption. intros s m I M. destruct (F2_in_l _ _ _ F s I) as (s' & _ & P). pose proof (q_measurement _ _ _ P) as Q.
      rewrite M in Q. destruct (ps_measurement s') as [m'|]; [|contradiction]. destruct (pm_ns _ _ Q) as (name & ns & K & _). eauto.
    + constructor; simpl; try reflexivity; try assumption.
  - intros [[A1 A2 A3 A4 A5] [B1 B2 B3 B4 B5 B6 B7 B8 B9 B10 B11 B12 B13 B14]].
    exists (pe_duration e'), (pe_signals e'), (pe_response e'), (pe_created e').
    split; [split; assumption|]. split; [split; assumption|]. split; [assumption|]. split; [assumption|]. split; [split; assumption|]. split; [split; assumption|].
    apply check_targets_ok; [exact W|]. split; [exact A5|]. split; [split; [|split]; assumption|].
    exists (pe_targets e'). destruct e, e'; simpl in *; subst; reflexivity.
Qed.

Lemma preflight_iff now l r : (forall e, In e l -> one_entry_each e) ->
  (preflight_distribute now l = Ok r <->
   length r = length l /\
   forall j e e', nth_error l j = Some e -> nth_error r j = Some e' -> acceptable e /\ prepared (now j) e e').
Proof.
  intros W. rewrite prep_from_0, prep_from_iff. split; intros [L H]; (split; [exact L|]); intros j e e' A B.
  - apply prep_one_ok; [apply W; eapply nth_error_In; eassumption|]. now apply H.
  - apply prep_one_ok; [apply W; eapply nth_error_In; eassumption|]. now apply H.
Qed.

Lemma prepared_rules now e e' : one_entry_each e -> acceptable e -> prepared now e e' -> rules e' /\ namespaced e'.
Proof.
  intros W [A1 A2 A3 A4 A5] [B1 B2 B3 B4 B5 B6 B7 B8 B9 B10 B11 B12 B13 B14]. split; [constructor|].
  - intros s' I. destruct (F2_in_r _ _ _ B7 s' I) as (s & J & P). rewrite (q_intervals _ _ _ P). destruct (A1 s J) as (t & L). exists t. split; [assumption|eauto].
  - intros s' i I S K. destruct (F2_in_r _ _ _ B7 s' I) as (s & J & P). rewrite (q_intervals _ _ _ P) in K. apply (A3 s); [assumption| |assumption].
    unfold simple in *. rewrite <- (q_name _ _ _ P). assumption.
  - intros s' v I S K N1 N2. rewrite B2 in N2. destruct (F2_in_r _ _ _ B7 s' I) as (s & J & P).
    assert (S' : simple s) by (unfold simple in *; rewrite <- (q_name _ _ _ P); assumption).
    destruct (ps_current s) as [w|] eqn:C.
    + destruct (eq_int w 0) eqn:Q.
      * apply eq_int_iff in Q. rewrite (q_current_kept _ _ _ P), C in K by (right; right; right; exists w; split; assumption). congruence.
      * rewrite (q_current_zero _ _ _ P w S' N2 C) in K; [injection K as <-; reflexivity|]. rewrite <- eq_int_iff. congruence.
    + rewrite (q_current_kept _ _ _ P), C in K by auto. discriminate.
  - destruct (opt_string_dec (pe_response e) (Some "never")); auto.
  - destruct (pe_created e) as [t|] eqn:C; [rewrite (B10 _ eq_refl)|rewrite B11 by reflexivity]; discriminate.
  - rewrite B4. destruct (pe_targets e) as [ts|] eqn:T.
    + rewrite (B12 _ eq_refl). destruct (pe_tbt e) as [tbt|]; [|exact I]. now apply A5.
    + destruct (pe_tbt e) as [tbt|] eqn:B.
      * destruct (B14 _ eq_refl eq_refl) as (ts & -> & S). now apply spread_agree; [apply W|].
      * rewrite B13 by reflexivity. exact I.
  - intros s' m' I M. destruct (F2_in_r _ _ _ B7 s' I) as (s & J & P). pose proof (q_measurement _ _ _ P) as Q. rewrite M in Q.
    destruct (ps_measurement s) as [m|]; [|contradiction]. destruct Q as [N _ _ _ _ _ (name & ns & [K1 K2] & S)].
    exists name, ns. split; [split; [congruence|assumption]|assumption].
Qed.

(** ** Exceptions *)
Lemma mapM_raise {A B} (f : A -> result B) l x : mapM f l = Raise x -> exists a, In a l /\ f a = Raise x.
Proof.
  induction l as [|a l IH]; simpl; [discriminate|]. destruct (f a) as [b|y] eqn:E; cbn [bind].
  - destruct (mapM f l) as [bs|y]; cbn [bind]; [discriminate|]. intros H. destruct (IH H) as (c & I & K). eauto.
  - intros H. injection H as ->. eauto.
Qed.

Lemma check_duration_raise e x : well_typed e -> check_duration e = Raise x -> x = ValueError.
Proof.
  intros W. unfold check_duration. destruct (mapM signal_duration _) as [ds|y] eqn:M; cbn [bind].
  - destruct (forallb _ ds); [discriminate|]. destruct ds as [|d0 ds]; [discriminate|]. destruct (forallb _ _); [discriminate|]. congruence.
  - intros H. injection H as ->. apply mapM_raise in M as (s & I & K). unfold signal_duration in K.
    destruct (mapM _ _) as [?|y] eqn:E; cbn [bind] in K; [discriminate|]. injection K as ->.
    apply mapM_raise in E as (i & J & K). destruct (W s I) as [V _]. destruct (V i J) as [(d & V')|V']; congruence.
Qed.

Lemma check_duration_same e e' : check_duration e = Ok e' -> pe_signals e' = pe_signals e.
Proof. intros H. apply check_duration_ok in H as (_ & d & _ & ->). reflexivity. Qed.

Lemma namespaces_raise e x : well_typed e -> namespaces (fix_currents e) = Raise x -> x = ValueError.
Proof.
  intros W. unfold namespaces, fix_currents. cbn [pe_signals set_pe_signals].
  destruct (mapM _ _) as [l|y] eqn:M; cbn [bind]; [discriminate|]. intros H. injection H as ->.
  apply mapM_raise in M as (s & I & K). apply in_map_iff in I as (s0 & <- & I).
  destruct (fix_current_prepared (pe_status e) s0) as (_ & _ & _ & _ & _ & Q & _). unfold signal_namespace in K. rewrite Q in K.
  destruct (ps_measurement s0) as [m|] eqn:Em; [|discriminate]. destruct (W s0 I) as [_ V]. specialize (V m Em).
  unfold add_namespace in K. destruct (md_name m); [|contradiction]. destruct (get _ _ _); cbn [bind] in K; congruence.
Qed.

Lemma check_targets_raise e x : check_targets e = Raise x -> x = ValueError.
Proof. unfold check_targets. destruct (pe_targets e), (pe_tbt e); try discriminate. destruct (tbt_eqb _ _); congruence. Qed.

Lemma check_simple_raise e x : check_simple e = Raise x -> x = ValueError.
Proof. unfold check_simple. destruct (forallb _ _); congruence. Qed.

Lemma preflight_raise now l x : (forall e, In e l -> well_typed e) -> preflight_distribute now l = Raise x -> x = ValueError.
Proof.
  intros W. rewrite prep_from_0. unfold prep_from.
  destruct (mapM check_duration l) as [l1|y] eqn:E1; cbn [bind].
  2: { intros H. injection H as ->. apply mapM_raise in E1 as (e & I & K). eapply check_duration_raise; eauto. }
  assert (W1 : forall e, In e l1 -> well_typed e).
  { apply mapM_ok in E1. intros e I. destruct (F2_in_r _ _ _ E1 e I) as (e0 & J & K). intros s. rewrite (check_duration_same _ _ K). now apply W. }
  destruct (mapM check_simple l1) as [u|y] eqn:E2; cbn [bind].
  2: { intros H. injection H as ->. apply mapM_raise in E2 as (e & I & K). eapply check_simple_raise; eauto. }
  destruct (mapM namespaces (map fix_currents l1)) as [l2|y] eqn:E3; cbn [bind].
  2: { intros H. injection H as ->. apply mapM_raise in E3 as (e & I & K). apply in_map_iff in I as (e0 & <- & I). eapply namespaces_raise; eauto. }
  intros H. apply mapM_raise in H as (e & _ & K). eapply check_targets_raise; eauto.
Qed.

(** ** What is right stays *)
Lemma prepared_measurement_ns m name ns : known m name ns -> prepared_measurement m (set_md_ns (Some ns) m).
Proof. intros K. constructor; try reflexivity. exists name, ns. split; [assumption|reflexivity]. Qed.

Lemma acceptable_rules e : rules e -> named e ->
  (forall ts tbt, pe_targets e = Some ts -> pe_tbt e = Some tbt -> canonical tbt) -> acceptable e.
Proof.
  intros [A1 A2 A3 A4 A5 A6] N C. constructor; try assumption.
  - intros s I. destruct (A1 s I) as (t & L & _). eauto.
  - intros s s' t t' I I' L L'. destruct (A1 s I) as (t1 & L1 & E1). destruct (A1 s' I') as (t2 & L2 & E2).
    rewrite (lasts_fun _ _ _ L L1), (lasts_fun _ _ _ L' L2). congruence.
  - intros ts tbt T B. rewrite T, B in A6. eauto.
Qed.

Lemma prepared_plain now e e' : rules e -> zero_unless_ACTIVE e -> prepared now e e' -> plain e' = plain e.
Proof.
  intros [A1 A2 A3 A4 A5 A6] Z [B1 B2 B3 B4 B5 B6 B7 B8 B9 B10 B11 B12 B13 B14].
  assert (P1 : pe_duration e' = pe_duration e).
  { destruct (pe_signals e) as [|s l] eqn:Es; [auto|]. destruct (A1 s (or_introl eq_refl)) as (t & L & ->). apply (B6 s t); [now left|assumption]. }
  assert (P2 : pe_response e' = pe_response e).
  { destruct A4 as [A4|A4]; rewrite A4; [apply B9; rewrite A4; discriminate|now apply B8]. }
  assert (P3 : pe_created e' = pe_created e).
  { destruct (pe_created e) as [t|]; [now apply B10|now elim A5]. }
  assert (P4 : pe_targets e' = pe_targets e).
  { destruct (pe_targets e) as [ts|]; [now apply B12|]. destruct (pe_tbt e) as [tbt|]; [contradiction|]. now apply B13. }
  assert (P5 : map plain_signal (pe_signals e') = map plain_signal (pe_signals e)).
  { unfold zero_unless_ACTIVE in Z. clear - Z B7. revert Z. induction B7 as [|s s' l l' P F IH]; intros Z; [reflexivity|]. cbn [map]. f_equal.
    - assert (C : ps_current s' = ps_current s).
      { apply (q_current_kept _ _ _ P). destruct (string_dec (ps_name s) "SIMPLE") as [S|S]; [|left; exact S].
        destruct (string_dec (pe_status e) "ACTIVE") as [A|A]; [auto|]. destruct (ps_current s) as [v|] eqn:C; [|auto].
        right; right; right. exists v. split; [reflexivity|]. apply (Z s v); auto. now left. }
      destruct P as [Q1 Q2 Q3 Q4 Q5 _ _ Q8]. unfold plain_signal.
      destruct s as [x1 x2 x3 x4 x5 x6 x7], s' as [y1 y2 y3 y4 y5 y6 y7]. simpl in *. subst. unfold set_ps_measurement; simpl. f_equal.
      destruct x6 as [m|], y6 as [m'|]; try contradiction; [|reflexivity]. destruct Q8 as [M1 M2 M3 M4 M5 M6 _].
      destruct m, m'; simpl in *; subst. reflexivity.
    - apply IH. intros s0 v I. apply Z. now right. }
  unfold plain. rewrite P5. destruct e, e'; simpl in *; subst. reflexivity.
Qed.

Lemma prepared_refl now e : rules e -> namespaced e -> zero_unless_ACTIVE e -> prepared now e e.
Proof.
  intros [A1 A2 A3 A4 A5 A6] N Z. constructor; try reflexivity.
  - intros s t I L. destruct (A1 s I) as (t' & L' & ->). now rewrite (lasts_fun _ _ _ L L').
  - unfold zero_unless_ACTIVE in Z. unfold namespaced in N.
    assert (G : forall l, (forall s, In s l -> In s (pe_signals e)) -> Forall2 (prepared_signal (pe_status e)) l l).
    { induction l as [|s l IH]; intros I; constructor; [|apply IH; intros; apply I; now right].
      constructor; try reflexivity.
      - intros v S A C NZ. exfalso. apply NZ. eapply Z; eauto. apply I. now left.
      - destruct (ps_measurement s) as [m|] eqn:M; [|exact Logic.I]. constructor; try reflexivity.
        destruct (N s m (I s (or_introl eq_refl)) M) as (name & ns & K & Q). exists name, ns. split; assumption. }
    apply G. auto.
  - auto.
  - intros H. destruct A4 as [A4|A4]; congruence.
  - auto.
  - intros H. contradiction.
  - auto.
  - auto.
  - intros tbt T B. rewrite T, B in A6. contradiction.
Qed.

Lemma prepared_zero now e e' : prepared now e e' -> zero_unless_ACTIVE e'.
Proof.
  intros [B1 B2 B3 B4 B5 B6 B7 B8 B9 B10 B11 B12 B13 B14] s' v I S K N2. rewrite B2 in N2. destruct (F2_in_r _ _ _ B7 s' I) as (s & J & P).
  assert (S' : simple s) by (unfold simple in *; rewrite <- (q_name _ _ _ P); assumption).
  destruct (ps_current s) as [w|] eqn:C.
  - destruct (eq_int w 0) eqn:Q.
    + apply eq_int_iff in Q. rewrite (q_current_kept _ _ _ P), C in K by (right; right; right; exists w; split; assumption). congruence.
    + rewrite (q_current_zero _ _ _ P w S' N2 C) in K; [injection K as <-; reflexivity|]. rewrite <- eq_int_iff. congruence.
  - rewrite (q_current_kept _ _ _ P), C in K by auto. discriminate.
Qed.

Lemma acceptable_again now e e' : one_entry_each e -> acceptable e -> prepared now e e' ->
  (pe_targets e = None -> forall tbt, pe_tbt e = Some tbt -> canonical tbt) -> acceptable e'.
Proof.
  intros W A P C. destruct (prepared_rules now e e' W A P) as [R N]. apply acceptable_rules; [assumption| |].
  - intros s m I M. destruct (N s m I M) as (name & ns & K & _). eauto.
  - intros ts tbt T B. rewrite (p_tbt _ _ _ P) in B. destruct (pe_targets e) as [ts0|] eqn:T0; [|now apply C].
    now apply (a_targets e A ts0 tbt T0 B).
Qed.

Lemma preflight_again now now' l l' : (forall e, In e l -> one_entry_each e) ->
  (forall e tbt, In e l -> pe_targets e = None -> pe_tbt e = Some tbt -> canonical tbt) ->
  preflight_distribute now l = Ok l' -> preflight_distribute now' l' = Ok l'.
Proof.
  intros W C H. apply preflight_iff in H as [L H]; [|assumption].
  assert (Back : forall j e', nth_error l' j = Some e' -> exists e, nth_error l j = Some e).
  { intros j e' E. destruct (nth_error l j) as [e|] eqn:N; [eauto|]. apply nth_error_None in N. assert (j < length l')%nat by (apply nth_error_Some; congruence). lia. }
  apply preflight_iff.
  - intros e' I. apply In_nth_error in I as (j & E). destruct (Back j e' E) as (e & N). destruct (H j e e' N E) as [_ P].
    intros tbt B. rewrite (p_tbt _ _ _ P) in B. apply (W e); [eapply nth_error_In; eassumption|assumption].
  - split; [reflexivity|]. intros j e1 e2 E1 E2. assert (e2 = e1) by congruence. subst e2. destruct (Back j e1 E1) as (e & N).
    destruct (H j e e1 N E1) as [A P]. assert (I : In e l) by (eapply nth_error_In; eassumption). split.
    + eapply acceptable_again; eauto.
    + destruct (prepared_rules _ e e1 (W e I) A P) as [R NS]. apply prepared_refl; [assumption..|]. eapply prepared_zero; eauto.
Qed.
