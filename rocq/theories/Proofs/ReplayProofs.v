From Coq Require Import ZArith String List Bool Lia Permutation.
From Verif.Base Require Import Result.
From Verif.Model Require Import DateTime Replay.
From Verif.Spec Require Import Timestamp ReplaySpec.
From Verif.Proofs Require Import DateTimeProofs.
Import ListNotations.
Local Open Scope Z_scope.
Local Arguments parse_datetime : simpl never.
Local Arguments instant : simpl never.
Local Arguments Z.sub : simpl never.

Lemma entry_eqb_eq a b : entry_eqb a b = true <-> a = b.
Proof.
  unfold entry_eqb. rewrite andb_true_iff, Z.eqb_eq, String.eqb_eq.
  destruct a, b; simpl. split; [intros [-> ->]; reflexivity | intros E; now injection E].
Qed.

Lemma in_cache_iff e c : in_cache e c = true <-> In e c.
Proof.
  unfold in_cache. rewrite existsb_exists. split.
  - intros (x & H & E). apply entry_eqb_eq in E. now subst.
  - intros H. exists e. split; [assumption|now apply entry_eqb_eq].
Qed.

Lemma cache_add_in x e c : In x (cache_add e c) <-> x = e \/ In x c.
Proof.
  unfold cache_add. destruct (in_cache e c) eqn:E.
  - apply in_cache_iff in E. split; [tauto|]. intros [->|]; assumption.
  - rewrite in_app_iff. simpl. intuition congruence.
Qed.

Lemma prune_in_old clk i l x : In x (prune clk i l) -> In x l /\ exists k, ~ fst x < clk k - max_delta.
Proof.
  revert i; induction l as [|e l IH]; intros i; simpl; [tauto|].
  destruct (Z.ltb_spec (fst e) (clk i - max_delta)).
  - intros H1. apply IH in H1. tauto.
  - simpl. intros [->|H1].
    + split; [now left|]. exists i. lia.
    + apply IH in H1. tauto.
Qed.

Lemma prune_keeps clk i l x : In x l -> (forall k, clk k - max_delta <= fst x) -> In x (prune clk i l).
Proof.
  revert i; induction l as [|e l IH]; intros i; simpl; [tauto|].
  intros [->|H] F.
  - destruct (Z.ltb_spec (fst x) (clk i - max_delta)); [specialize (F i); lia|now left].
  - destruct (fst e <? clk i - max_delta); [auto|right; auto].
Qed.

Lemma prune_drops clk i l x : In x l -> In x (prune clk i l) \/ exists k, fst x < clk k - max_delta.
Proof.
  revert i; induction l as [|e l IH]; intros i; simpl; [tauto|]. intros [->|H].
  - destruct (Z.ltb_spec (fst x) (clk i - max_delta)); [right; eauto|left; now left].
  - destruct (fst e <? clk i - max_delta); destruct (IH (S i) H); auto. left; now right.
Qed.

Lemma presents_iff c e : presents c e <->
  exists text t, ck_ts c = Some text /\ parse_datetime text = Ok (Parsed t) /\
                 ck_nonce c = Some (snd e) /\ instant t = fst e.
Proof.
  unfold presents. split.
  - intros (text & A & R & N). apply reads_as_iff in R as (t & P & I). eauto 10.
  - intros (text & t & A & P & N & I). exists text. split; [assumption|]. split; [|assumption].
    apply reads_as_iff. eauto.
Qed.

Lemma do_check_ok_iff c cache :
  fst (do_check c cache) = Ok tt <->
  exists e, presents c e /\ ck_now c - max_delta <= fst e /\ ~ In e cache.
Proof.
  setoid_rewrite presents_iff. unfold do_check, verify_replay_protect. split.
  - destruct (ck_ts c) as [text|]; [|discriminate].
    destruct (parse_datetime text) as [[t|]|] eqn:P; try discriminate.
    + destruct (ck_nonce c) as [n|]; [|discriminate].
      destruct (Z.ltb_spec (instant t) (ck_now c - max_delta)); [discriminate|].
      destruct (in_cache (instant t, n) cache) eqn:I; [discriminate|]. intros _.
      exists (instant t, n). simpl. split; [eauto 10|]. split; [lia|].
      rewrite <- in_cache_iff, I. discriminate.
    + destruct (ck_nonce c); discriminate.
  - intros ((i, n) & (text & t & -> & P & -> & I) & F & N). rewrite P. simpl in *. subst i.
    destruct (Z.ltb_spec (instant t) (ck_now c - max_delta)); [lia|].
    destruct (in_cache (instant t, n) cache) eqn:I; [apply in_cache_iff in I; contradiction|]. reflexivity.
Qed.

Lemma do_check_ok_cache c cache e :
  fst (do_check c cache) = Ok tt -> presents c e ->
  snd (do_check c cache) = update_nonce_cache (ck_shuffle c) (ck_clk c) e cache.
Proof.
  rewrite presents_iff. unfold do_check, verify_replay_protect. intros H (text & t & E1 & P & E2 & I).
  revert H. rewrite E1, E2, P, I. destruct e as [i n]; cbn [fst snd] in *.
  destruct (i <? ck_now c - max_delta); [discriminate|].
  destruct (in_cache (i, n) cache); [discriminate|]. reflexivity.
Qed.

Lemma do_check_reject_cache c cache : fst (do_check c cache) <> Ok tt -> snd (do_check c cache) = cache.
Proof.
  unfold do_check, verify_replay_protect. intros H.
  destruct (ck_ts c) as [text|]; [|reflexivity].
  destruct (parse_datetime text) as [[t|]|]; try reflexivity; destruct (ck_nonce c) as [n|]; try reflexivity.
  destruct (instant t <? ck_now c - max_delta); [reflexivity|].
  destruct (in_cache (instant t, n) cache); [reflexivity|]. exfalso. apply H. reflexivity.
Qed.

Lemma presents_functional c e e' : presents c e -> presents c e' -> e = e'.
Proof.
  rewrite !presents_iff. intros (x & t & A & B & C & D) (x' & t' & A' & B' & C' & D'). destruct e, e'; simpl in *.
  rewrite A in A'. injection A' as <-. rewrite B in B'. injection B' as <-. congruence.
Qed.

Lemma update_in shuffle clk e cache x :
  (forall l, Permutation (shuffle l) l) ->
  In x (update_nonce_cache shuffle clk e cache) ->
  (x = e \/ In x cache) /\ exists k, clk k - max_delta <= fst x.
Proof.
  intros P H. unfold update_nonce_cache in H. apply prune_in_old in H as (H & k & K).
  split; [|exists k; lia]. apply (Permutation_in x (P _)) in H. now apply cache_add_in in H.
Qed.

Lemma update_keeps shuffle clk e cache x :
  (forall l, Permutation (shuffle l) l) -> (x = e \/ In x cache) ->
  In x (update_nonce_cache shuffle clk e cache) \/ exists k, fst x < clk k - max_delta.
Proof.
  intros P H. unfold update_nonce_cache. apply prune_drops.
  apply (Permutation_in x (Permutation_sym (P _))). now apply cache_add_in.
Qed.

(** * Histories *)

(** Invariant: whatever was accepted is still in the cache or too old for
    every later check; whatever is in the cache was accepted. *)
Definition covered (e : entry) (cache : list entry) (rest : list check) : Prop :=
  In e cache \/ Forall (fun c' => fst e < ck_now c' - max_delta) rest.

Lemma outcome_later e cache h :
  clock_ok h -> shuffles_ok h -> covered e cache h ->
  forall j c, nth_error h j = Some c -> presents c e ->
  nth_error (outcomes h cache) j <> Some (Ok tt).
Proof.
  revert cache; induction h as [|c0 h IH]; intros cache CL SH CO j c HJ HP; [destruct j; discriminate|].
  simpl. destruct (do_check c0 cache) as [o cache'] eqn:E. destruct CL as (CL1 & CL2 & CL3).
  pose proof (SH c0 (or_introl eq_refl)) as SH1; assert (SH2 : shuffles_ok h) by (intros x Hx; apply SH; now right).
  assert (CO' : covered e cache' h).
  { destruct CO as [CO|CO]; [|right; now inversion CO].
    assert (EC : cache' = snd (do_check c0 cache)) by now rewrite E.
    destruct o as [[]|x].
    - assert (OK : fst (do_check c0 cache) = Ok tt) by now rewrite E.
      pose proof OK as OK2. apply do_check_ok_iff in OK as (e0 & P0 & _).
      rewrite (do_check_ok_cache _ _ _ OK2 P0) in EC. subst cache'.
      destruct (update_keeps (ck_shuffle c0) (ck_clk c0) e0 cache e SH1 (or_intror CO)) as [I|(k & K)]; [now left|].
      right. rewrite Forall_forall. intros c' Hc'. specialize (CL2 c' Hc' k). lia.
    - left. rewrite EC, do_check_reject_cache; [assumption|]. rewrite E. discriminate. }
  destruct j as [|j]; simpl in *.
  - injection HJ as <-. intros OK. injection OK as ->.
    assert (OK : fst (do_check c0 cache) = Ok tt) by now rewrite E.
    apply do_check_ok_iff in OK as (e0 & P0 & F & N).
    rewrite <- (presents_functional _ _ _ HP P0) in *.
    destruct CO as [CO|CO]; [contradiction|]. inversion CO; subst. lia.
  - eapply IH; eauto.
Qed.

Lemma accepted_covered e cache c h :
  clock_ok (c :: h) -> shuffles_ok (c :: h) -> presents c e ->
  fst (do_check c cache) = Ok tt -> covered e (snd (do_check c cache)) h.
Proof.
  intros (_ & CL & _) SH P OK. rewrite (do_check_ok_cache _ _ _ OK P).
  pose proof (SH c (or_introl eq_refl)) as SH1; assert (SH2 : shuffles_ok h) by (intros x Hx; apply SH; now right).
  destruct (update_keeps (ck_shuffle c) (ck_clk c) e cache e SH1 (or_introl eq_refl)) as [I|(k & K)]; [now left|].
  right. rewrite Forall_forall. intros c' Hc'. specialize (CL c' Hc' k). lia.
Qed.

Lemma at_most_once h : clock_ok h -> shuffles_ok h ->
  forall cache i j ci cj e, (i < j)%nat -> nth_error h i = Some ci -> nth_error h j = Some cj ->
  presents ci e -> presents cj e ->
  nth_error (outcomes h cache) i = Some (Ok tt) -> nth_error (outcomes h cache) j <> Some (Ok tt).
Proof.
  induction h as [|c h IH]; intros CL SH cache i j ci cj e L HI HJ PI PJ OI; [destruct i; discriminate|].
  simpl in OI |- *. destruct (do_check c cache) as [o cache'] eqn:E.
  destruct j as [|j]; [lia|]. simpl in HJ |- *.
  destruct i as [|i]; simpl in HI, OI.
  - injection HI as <-. injection OI as ->.
    assert (OK : fst (do_check c cache) = Ok tt) by now rewrite E.
    pose proof (accepted_covered e cache c h CL SH PI OK) as CO. rewrite E in CO. simpl in CO.
    destruct CL as (_ & _ & CL). assert (SH2 : shuffles_ok h) by (intros x Hx; apply SH; now right). eapply outcome_later; eauto.
  - destruct CL as (_ & _ & CL). pose proof (SH c (or_introl eq_refl)) as SH1; assert (SH2 : shuffles_ok h) by (intros x Hx; apply SH; now right). apply (IH CL SH2 cache' i j ci cj e); auto; lia.
Qed.

Lemma outcome_kinds c cache o cache' e :
  do_check c cache = (o, cache') -> presents c e -> o = Ok tt \/ o = Raise ValueError.
Proof.
  rewrite presents_iff. unfold do_check, verify_replay_protect. intros H (text & t & E1 & E2 & E3 & E4).
  rewrite E1, E2, E3 in H. repeat match type of H with context [if ?b then _ else _] => destruct b end;
    injection H as <- <-; auto.
Qed.

Lemma outcomes_nth h cache j c :
  nth_error h j = Some c -> exists cache' o, nth_error (outcomes h cache) j = Some o /\ do_check c cache' = (o, snd (do_check c cache')).
Proof.
  revert cache j; induction h as [|c0 h IH]; intros cache j HJ; [destruct j; discriminate|].
  simpl. destruct (do_check c0 cache) as [o cache'] eqn:E. destruct j as [|j]; simpl in *.
  - injection HJ as <-. exists cache, o. rewrite E. auto.
  - apply IH. assumption.
Qed.

(** Cache contents along a history come from accepted checks. *)
Lemma outcome_ok_iff_gen h : clock_ok h -> shuffles_ok h ->
  forall cache j c e, nth_error h j = Some c -> presents c e -> 
  (nth_error (outcomes h cache) j = Some (Ok tt) <->
   ck_now c - max_delta <= fst e /\ ~ In e cache /\
   forall i ci, (i < j)%nat -> nth_error h i = Some ci -> presents ci e ->
     nth_error (outcomes h cache) i <> Some (Ok tt)) \/ (In e cache).
Proof.
  induction h as [|c0 h IH]; intros CL SH cache j c e HJ HP; [destruct j; discriminate|].
  destruct (in_cache e cache) eqn:I; [right; now apply in_cache_iff|]. left.
  assert (NI : ~ In e cache) by (rewrite <- in_cache_iff, I; discriminate). clear I.
  simpl. destruct (do_check c0 cache) as [o cache'] eqn:E.
  destruct j as [|j]; simpl in HJ |- *.
  - injection HJ as <-. split.
    + intros OK. injection OK as ->. assert (OK : fst (do_check c0 cache) = Ok tt) by now rewrite E.
      apply do_check_ok_iff in OK as (e0 & P0 & F & N).
      rewrite <- (presents_functional _ _ _ HP P0) in *. repeat split; auto. intros; lia.
    + intros (F & _ & _). f_equal.
      assert (OK : fst (do_check c0 cache) = Ok tt) by (apply do_check_ok_iff; eauto).
      now rewrite E in OK.
  - pose proof CL as (_ & CL2 & CL3). pose proof (SH c0 (or_introl eq_refl)) as SH1; assert (SH2 : shuffles_ok h) by (intros x Hx; apply SH; now right).
    assert (EC : cache' = snd (do_check c0 cache)) by now rewrite E.
    assert (EO : o = fst (do_check c0 cache)) by now rewrite E.
    destruct (IH CL3 SH2 cache' j c e HJ HP) as [IHj|IN].
    + rewrite IHj. split.
      * intros (F & N & A). split; [assumption|]. split; [assumption|].
        intros i ci L HI PI. destruct i as [|i]; simpl in *.
        -- injection HI as <-. intros OK. injection OK as ->.
           assert (CO : covered e (snd (do_check c0 cache)) h).
           { eapply accepted_covered; eauto. }
           rewrite <- EC in CO. destruct CO as [CO|CO]; [contradiction|].
           apply nth_error_In in HJ. rewrite Forall_forall in CO. specialize (CO c HJ). lia.
        -- apply (A i ci); auto; lia.
      * intros (F & _ & A). split; [assumption|]. split.
        -- intros IN. rewrite EC in IN.
           destruct (fst (do_check c0 cache)) as [[]|x] eqn:FO.
           ++ pose proof FO as FO2. apply do_check_ok_iff in FO2 as (e0 & P0 & _).
              rewrite (do_check_ok_cache _ _ _ FO P0) in IN. apply update_in in IN as ([->|IN] & _); auto.
              apply (A 0%nat c0); simpl; auto; try lia. subst o. reflexivity.
           ++ rewrite do_check_reject_cache in IN by (rewrite FO; discriminate). contradiction.
        -- intros i ci L HI PI. apply (A (S i) ci); auto; lia.
    + (* e in cache' : accepted by c0 *)
      rewrite EC in IN. destruct (fst (do_check c0 cache)) as [[]|x] eqn:FO.
      * pose proof FO as FO2. apply do_check_ok_iff in FO2 as (e0 & P0 & _).
        rewrite (do_check_ok_cache _ _ _ FO P0) in IN. pose proof (update_in _ _ _ _ _ SH1 IN) as ([->|IN'] & _); [|contradiction].
        split.
        -- intros OK. exfalso. eapply (outcome_later e0 cache' h); eauto.
           left. rewrite EC, (do_check_ok_cache _ _ _ FO P0). assumption.
        -- intros (_ & _ & A). exfalso. apply (A 0%nat c0); simpl; auto; try lia. subst o. reflexivity.
      * rewrite do_check_reject_cache in IN by (rewrite FO; discriminate). contradiction.
Qed.
