(** C43: constructing signals, events and opts. *)
From Coq Require Import ZArith String List Bool Lia.
From Verif.Base Require Import Result Dict PyStr ListExtra.
From Verif.Model Require Import Objects EventTime Members Server Preflight Constructors.
From Verif.Spec Require Import PathSpec EventSpec AddSpec.
From Verif.Spec Require PreflightSpec.
From Verif.Proofs Require Import MembersProofs EventTimeProofs ServerProofs PreflightProofs.
From Verif.Properties Require P_EventTime.
Import PreflightSpec(agree, canonical, spread, target_values).
Import ListNotations.
Local Open Scope string_scope.
Local Open Scope Z_scope.

(** Both given and the same, or both absent. *)
Definition same_targets (ts : option (list target)) (d : option (dict string tval)) : Prop :=
  match ts, d with Some ts, Some d => agree ts d | None, None => True | _, _ => False end.
Definition one_each (d : option (dict string tval)) : Prop := forall x, d = Some x -> NoDup (map fst x).

(** The target types that OpenADR knows. *)
Definition openadr_target_types : list string :=
  ["aggregated_p_node"; "end_device_asset"; "meter_asset"; "p_node"; "service_area"; "service_delivery_point"; "service_location";
   "transport_interface"; "group_id"; "group_name"; "resource_id"; "ven_id"; "party_id"].



(** ** Lemmas *)
Definition used (v : tval) : list scalar := match v with TList l => l | TStr s => [SStr s] | TOther => [] end.

Lemma forallb_single k v : forallb (fun '(k, _) => inb k target_fields) [(k, v : scalar)] = true <-> In k openadr_target_types.
Proof. cbn [forallb]. rewrite andb_true_r. apply inb_In. Qed.

Lemma make_target_single k v : In k openadr_target_types ->
  exists t, make_target [(k, v)] = Ok t /\ target_pairs [t] = target_pairs [[(k, v)]].
Proof.
  intros I. unfold make_target. rewrite (proj2 (forallb_single k v) I). eexists. split; [reflexivity|].
  unfold target_pairs. cbn [concat]. rewrite !app_nil_r. unfold target_fields. cbn [map get].
  simpl in I. repeat (destruct I as [<-|I]; [simpl; destruct (scalar_eq_dec v SNone); reflexivity|]). contradiction.
Qed.

Lemma target_pairs_cons t l : target_pairs (t :: l) = (target_pairs [t] ++ target_pairs l)%list.
Proof. unfold target_pairs. cbn [concat]. rewrite filter_app, app_nil_r. reflexivity. Qed.

Lemma make_targets raw : Forall (fun t => length t = 1%nat) raw ->
  ((forall k v, In [(k, v)] raw -> In k openadr_target_types) ->
     exists ts, mapM make_target raw = Ok ts /\ target_pairs ts = target_pairs raw) /\
  ((exists k v, In [(k, v)] raw /\ ~ In k openadr_target_types) -> mapM make_target raw = Raise TypeError).
Proof.
  intros F. induction F as [|t raw L F IH].
  - split; [exists []; auto|]. intros (k & v & [] & _).
  - destruct t as [|[k v] [|]]; simpl in L; try discriminate. destruct IH as [IH1 IH2].
    destruct (in_dec string_dec k openadr_target_types) as [I|I].
    + destruct (make_target_single k v I) as (t & E & P). split.
      * intros H. destruct IH1 as (ts & M & Q); [intros; eapply H; right; eassumption|].
        exists (t :: ts). cbn [mapM]. rewrite E. cbn [bind]. rewrite M. split; [reflexivity|].
        etransitivity; [apply target_pairs_cons|]. etransitivity; [|symmetry; apply target_pairs_cons]. now f_equal.
      * intros (k' & v' & [J|J] & N); [injection J as <- <-; contradiction|]. cbn [mapM]. rewrite E. cbn [bind]. rewrite IH2 by eauto. reflexivity.
    + assert (E : make_target [(k, v)] = Raise TypeError).
      { unfold make_target. destruct (forallb _ [(k, v)]) eqn:B; [|reflexivity]. apply forallb_single in B. contradiction. }
      split.
      * intros H. exfalso. apply I. apply (H k v). now left.
      * intros _. cbn [mapM]. rewrite E. reflexivity.
Qed.

Lemma agree_pairs ts ts' d : target_pairs ts' = target_pairs ts -> agree ts d -> agree ts' d.
Proof. intros E [A B]. unfold agree, target_values in *. rewrite E. auto. Qed.

Lemma ungroup_In k v d : In [(k, v)] (ungroup_targets_by_type d) <-> exists x, In (k, x) d /\ In v (used x).
Proof.
  unfold ungroup_targets_by_type. rewrite in_flat_map. split.
  - intros ([k' x] & I & J). destruct x as [l|s|]; simpl in J.
    + apply in_map_iff in J as (y & E & J). injection E as -> ->. eauto.
    + destruct J as [E|[]]. injection E as -> <-. exists (TStr s). split; [assumption|now left].
    + contradiction.
  - intros (x & I & J). exists (k, x). split; [assumption|]. destruct x as [l|s|]; simpl in *.
    + apply in_map_iff. eauto.
    + destruct J as [->|[]]. now left.
    + contradiction.
Qed.

(** Every type with a value, even None, must be known. *)
Definition all_known (d : dict string tval) : Prop := forall k v, In (k, v) d -> used v <> [] -> In k openadr_target_types.

Lemma from_tbt d : NoDup (map fst d) ->
  (all_known d -> exists ts, mapM make_target (ungroup_targets_by_type d) = Ok ts /\ agree ts d) /\
  (~ all_known d -> mapM make_target (ungroup_targets_by_type d) = Raise TypeError).
Proof.
  intros ND. assert (S : spread d (ungroup_targets_by_type d)) by now apply ungroup_spread.
  pose proof (spread_agree d _ ND S) as A. destruct S as [F _]. destruct (make_targets _ F) as [M1 M2]. split.
  - intros K. destruct M1 as (ts & E & P).
    + intros k v I. apply ungroup_In in I as (x & I & J). apply (K k x I). intros Z. rewrite Z in J. contradiction.
    + exists ts. split; [assumption|]. eapply agree_pairs; eassumption.
  - intros N. apply M2. clear - N.
    assert (G : exists k x, In (k, x) d /\ used x <> [] /\ ~ In k openadr_target_types).
    { induction d as [|[k x] d IH]; [exfalso; apply N; intros k v []|].
      destruct (in_dec string_dec k openadr_target_types) as [I|I].
      - destruct IH as (k' & x' & J & U & Q).
        + intros H. apply N. intros k' v [E|J] U; [injection E as <- <-; assumption|eauto].
        + exists k', x'. split; [now right|auto].
      - destruct (used x) as [|y l] eqn:U.
        + destruct IH as (k' & x' & J & U' & Q).
          * intros H. apply N. intros k' v [E|J] U'; [injection E as <- <-; congruence|eauto].
          * exists k', x'. split; [now right|auto].
        + exists k, x. split; [now left|]. split; [congruence|assumption]. }
    destruct G as (k & x & I & U & Q). destruct (used x) as [|y l] eqn:E; [now elim U|].
    exists k, y. split; [|assumption]. apply ungroup_In. exists x. split; [assumption|]. rewrite E. now left.
Qed.

Lemma grouped_canonical ts : canonical (tbt_of (group_targets_by_type ts)) /\ NoDup (map fst (tbt_of (group_targets_by_type ts))) /\ agree ts (tbt_of (group_targets_by_type ts)).
Proof.
  assert (ND : NoDup (map fst (tbt_of (group_targets_by_type ts)))).
  { unfold tbt_of. rewrite map_map. erewrite map_ext; [apply (grouped_NoDup ts)|]. now intros [k l]. }
  assert (T : tbt_eqb (group_targets_by_type ts) (tbt_of (group_targets_by_type ts)) = true).
  { unfold tbt_eqb. rewrite andb_true_iff. split; [unfold tbt_of; rewrite map_length; apply Nat.eqb_refl|].
    apply forallb_forall. intros [k l] I.
    assert (J : In (k, TList l) (tbt_of (group_targets_by_type ts))) by (unfold tbt_of; apply in_map_iff; exists (k, l); auto).
    rewrite (in_get_nodup String.eqb String.eqb_eq _ _ _ ND J). simpl. destruct (list_eq_dec scalar_eq_dec l l); [reflexivity|contradiction]. }
  apply (tbt_eqb_iff ts _ ND) in T. tauto.
Qed.

(** ** EventSignal *)
Definition one_type (ts : list target) : Prop := forall k k', target_values k ts <> [] -> target_values k' ts <> [] -> k = k'.

Lemma one_type_iff ts : (1 <? length (group_targets_by_type ts))%nat = false <-> one_type ts.
Proof.
  rewrite Nat.ltb_ge. pose proof (grouped_NoDup ts) as ND.
  assert (K : forall k, In k (map fst (group_targets_by_type ts)) <-> target_values k ts <> []).
  { intros k. pose proof (grouped_get ts k) as G. split.
    - intros I N. rewrite N in G. apply (get_none_iff String.eqb String.eqb_eq) in G. contradiction.
    - intros N. destruct (target_values k ts) as [|x l]; [now elim N|]. apply (get_in String.eqb String.eqb_eq) in G. change k with (fst (k, x :: l)). now apply in_map. }
  split.
  - intros L k k' H H'. apply K in H, H'. destruct (group_targets_by_type ts) as [|p [|q r]]; simpl in *; [contradiction| |lia]. intuition congruence.
  - intros O. destruct (group_targets_by_type ts) as [|p [|q r]]; simpl in *; [lia|lia|]. exfalso.
    inversion ND as [|? ? NI _]; subst. apply NI. left. apply O; apply K; auto.
Qed.

Definition C43_signal_full : Prop := forall name type ts d, one_each d ->
  make_signal name type ts d = Raise ValueError \/
  exists ts' d', make_signal name type ts d = Ok (ts', d') /\ In type openadr_signal_types /\ valid_name name /\ same_targets ts' d'.

(** Given targets only, an EventSignal has no targets_by_type; given an unknown
    type in targets_by_type, it raises TypeError. *)
Theorem C43_signal_refuted : ~ C43_signal_full.
Proof.
  intros F. destruct (F "SIMPLE" "level" (Some [[("end_device_asset", SStr "x")]]) None) as [H|(ts' & d' & H & _ & _ & S)].
  - intros x E. discriminate.
  - vm_compute in H. discriminate.
  - vm_compute in H. injection H as <- <-. exact S.
Qed.

Theorem C43_signal_type_error : forall name type d, In type openadr_signal_types -> valid_name name -> NoDup (map fst d) -> ~ all_known d ->
  make_signal name type None (Some d) = Raise TypeError.
Proof.
  intros name type d T N ND K. unfold make_signal. apply types_agree, inb_In in T. rewrite T. cbn [negb].
  assert (B : negb (inb name SIGNAL_NAME_values) && negb (startswith "x-" name) = false).
  { destruct N as [N|(rest & N)].
    - apply names_agree, inb_In in N. rewrite N. reflexivity.
    - rewrite (proj2 (startswith_spec "x-" name)) by eauto. now rewrite andb_false_r. }
  rewrite B. rewrite (proj2 (from_tbt d ND) K). reflexivity.
Qed.

(** What it does exactly. *)
Theorem C43_signal_partial : forall name type ts d ts' d', one_each d ->
  (make_signal name type ts d = Ok (ts', d') -> In type openadr_signal_types /\ valid_name name /\ (ts = None \/ d <> None -> same_targets ts' d') /\
     (ts <> None -> ts' = ts) /\ d' = d) /\
  ((exists r, make_signal name type ts d = Ok r) <->
     In type openadr_signal_types /\ valid_name name /\
     match ts, d with
     | None, None => True
     | Some ts, None => one_type ts
     | None, Some d => all_known d
     | Some ts, Some d => agree ts d /\ canonical d
     end) /\
  ((exists x, make_signal name type ts d = Raise x /\ x <> ValueError) -> ts = None /\ exists x, d = Some x /\ ~ all_known x).
Proof.
  intros name type ts d ts' d' W. unfold make_signal.
  destruct (inb type SIGNAL_TYPE_values) eqn:T; cbn [negb].
  2:{ apply not_true_iff_false in T. rewrite inb_In, types_agree in T. split; [discriminate|]. split; [split; [intros (r & H); discriminate|tauto]|]. intros (x & H & N). congruence. }
  apply inb_In, types_agree in T.
  destruct (negb (inb name SIGNAL_NAME_values) && negb (startswith "x-" name)) eqn:B.
  { assert (NV : ~ valid_name name).
    { apply andb_true_iff in B as [B1 B2]. rewrite negb_true_iff in B1, B2. intros [N|(rest & N)].
      - apply names_agree, inb_In in N. congruence.
      - assert (startswith "x-" name = true) by (apply startswith_spec; eauto). congruence. }
    split; [discriminate|]. split; [split; [intros (r & H); discriminate|tauto]|]. intros (x & H & N). congruence. }
  assert (V : valid_name name).
  { apply andb_false_iff in B as [B|B]; apply negb_false_iff in B; [left; now apply names_agree, inb_In|right; apply startswith_spec in B; exact B]. }
  destruct ts as [ts|], d as [d|].
  - destruct (tbt_eqb (group_targets_by_type ts) d) eqn:Q.
    + apply (tbt_eqb_iff ts d (W d eq_refl)) in Q. split; [intros H; injection H as <- <-; repeat (split; [assumption|]); split; [intros _; apply Q|auto]|].
      split; [split; [auto|intros _; eauto]|]. intros (x & H & _). discriminate.
    + split; [discriminate|]. split; [split; [intros (r & H); discriminate|]|intros (x & H & N); congruence].
      intros (_ & _ & A). apply (tbt_eqb_iff ts d (W d eq_refl)) in A. congruence.
  - pose proof (one_type_iff ts) as O. destruct (1 <? length (group_targets_by_type ts))%nat.
    + split; [discriminate|]. split; [split; [intros (r & H); discriminate|]|intros (x & H & N); congruence].
      intros (_ & _ & A). apply O in A. discriminate.
    + split; [intros H; injection H as <- <-; repeat (split; [assumption|]); split; [intros [H|H]; [discriminate|now elim H]|auto]|].
      split; [split; [intros _; repeat (split; [assumption|]); now apply O|intros _; eauto]|]. intros (x & H & _). discriminate.
  - destruct (from_tbt d (W d eq_refl)) as [M1 M2].
    destruct (mapM make_target (ungroup_targets_by_type d)) as [ts|x] eqn:M; cbn [bind].
    + assert (K : all_known d).
      { destruct (Forall_dec (fun p => used (snd p) <> [] -> In (fst p) openadr_target_types)) with (l := d) as [H|H].
        - intros [k v]. simpl. destruct (used v) as [|y l]; [left; intros H; now elim H|].
          destruct (in_dec string_dec k openadr_target_types); [left; auto|right; intros H; apply n, H; discriminate].
        - intros k v I U. rewrite Forall_forall in H. exact (H (k, v) I U).
        - exfalso. assert (N : ~ all_known d).
          { intros A. apply H. apply Forall_forall. intros [k v] I. exact (A k v I). }
          specialize (M2 N). discriminate. }
      destruct (M1 K) as (ts2 & E & A). injection E as <-.
      split; [intros H; injection H as <- <-; repeat (split; [assumption|]); split; [auto|split; [intros H; now elim H|reflexivity]]|].
      split; [split; [auto|intros _; eauto]|]. intros (x & H & _). discriminate.
    + assert (N : ~ all_known d) by (intros A; destruct (M1 A) as (? & E & _); discriminate).
      split; [discriminate|]. split; [split; [intros (r & H); discriminate|tauto]|]. intros (y & H & _). split; [reflexivity|eauto].
  - split; [intros H; injection H as <- <-; repeat (split; [assumption|]); split; [intros _; exact I|split; [intros H; now elim H|reflexivity]]|].
    split; [split; [auto|intros _; eauto]|]. intros (x & H & _). discriminate.
Qed.

Example C43_signal_example :
  (exists ts, make_signal "x-load" "level" None (Some [("end_device_asset", TStr "x")]) = Ok (Some ts, Some [("end_device_asset", TStr "x")]) /\
              target_values "end_device_asset" ts = [SStr "x"]) /\
  make_signal "SIMPLE" "level" (Some [[("ven_id", SStr "a")]; [("group_id", SStr "b")]]) None = Raise ValueError /\
  make_signal "SIMPLE" "level" None (Some [("colour", TStr "a")]) = Raise TypeError.
Proof.
  split; [|split; vm_compute; reflexivity].
  exists (match make_signal "x-load" "level" None (Some [("end_device_asset", TStr "x")]) with Ok (Some ts, _) => ts | _ => [] end).
  split; vm_compute; reflexivity.
Qed.

(** ** Targets of events and opts *)
Lemma settle_ok ts d r : one_each d -> settle_targets ts d = Ok r ->
  agree (fst r) (snd r) /\ NoDup (map fst (snd r)) /\ (forall x, ts = Some x -> fst r = x) /\ (forall x, d = Some x -> snd r = x).
Proof.
  intros W. unfold settle_targets. destruct ts as [ts|], d as [d|].
  - destruct (tbt_eqb (group_targets_by_type ts) d) eqn:Q; [|discriminate]. intros H. injection H as <-. apply (tbt_eqb_iff ts d (W d eq_refl)) in Q.
    simpl. split; [tauto|]. split; [now apply W|]. split; congruence.
  - intros H. injection H as <-. simpl. destruct (grouped_canonical ts) as (_ & N & A). split; [assumption|]. split; [assumption|]. split; congruence.
  - destruct (from_tbt d (W d eq_refl)) as [M1 M2]. destruct (mapM _ _) as [x|] eqn:M; cbn [bind]; [|discriminate]. intros H. injection H as <-. simpl.
    assert (K : ~ ~ all_known d) by (intros N; specialize (M2 N); discriminate).
    split; [|split; [now apply W|split; congruence]].
    destruct (Forall_dec (fun p => used (snd p) <> [] -> In (fst p) openadr_target_types)) with (l := d) as [H|H].
    + intros [k v]. simpl. destruct (used v) as [|y l]; [left; intros H; now elim H|].
      destruct (in_dec string_dec k openadr_target_types); [left; auto|right; intros H; apply n, H; discriminate].
    + destruct M1 as (ts2 & E & A); [intros k v I U; rewrite Forall_forall in H; exact (H (k, v) I U)|]. injection E as <-. exact A.
    + exfalso. apply K. intros A. apply H. apply Forall_forall. intros [k v] I. exact (A k v I).
  - discriminate.
Qed.

Lemma settle_raise ts d x : one_each d -> settle_targets ts d = Raise x -> x = ValueError \/ (x = TypeError /\ ts = None /\ exists y, d = Some y /\ ~ all_known y).
Proof.
  intros W. unfold settle_targets. destruct ts as [ts|], d as [d|].
  - destruct (tbt_eqb _ _); [discriminate|]. left. congruence.
  - discriminate.
  - destruct (from_tbt d (W d eq_refl)) as [M1 M2]. destruct (mapM _ _) as [y|y] eqn:M; cbn [bind]; [discriminate|]. intros H. injection H as <-.
    right. assert (N : ~ all_known d) by (intros A; destruct (M1 A) as (? & E & _); discriminate). specialize (M2 N). injection M2 as ->. eauto.
  - left. congruence.
Qed.

Lemma settle_accepts ts d : one_each d -> ((exists r, settle_targets ts d = Ok r) <->
  match ts, d with
  | None, None => False
  | Some _, None => True
  | None, Some d => all_known d
  | Some ts, Some d => agree ts d /\ canonical d
  end).
Proof.
  intros W. unfold settle_targets. destruct ts as [ts|], d as [d|].
  - destruct (tbt_eqb (group_targets_by_type ts) d) eqn:Q.
    + apply (tbt_eqb_iff ts d (W d eq_refl)) in Q. split; [tauto|eauto].
    + split; [intros (r & H); discriminate|]. intros A. apply (tbt_eqb_iff ts d (W d eq_refl)) in A. congruence.
  - split; [tauto|eauto].
  - destruct (from_tbt d (W d eq_refl)) as [M1 M2]. split.
    + intros (r & H). destruct (Forall_dec (fun p => used (snd p) <> [] -> In (fst p) openadr_target_types)) with (l := d) as [K|K].
      * intros [k v]. simpl. destruct (used v) as [|y l]; [left; intros Q; now elim Q|].
        destruct (in_dec string_dec k openadr_target_types); [left; auto|right; intros Q; apply n, Q; discriminate].
      * intros k v I U. rewrite Forall_forall in K. exact (K (k, v) I U).
      * rewrite M2 in H; [discriminate|]. intros A. apply K. apply Forall_forall. intros [k v] I. exact (A k v I).
    + intros K. destruct (M1 K) as (x & -> & _). cbn [bind]. eauto.
  - split; [intros (r & H); discriminate|tauto].
Qed.

(** ** Event *)

(** The period covers all intervals of all signals. *)
Definition covers (local : Z -> Z) (p : active_period) (signals : list (list (when * Z))) : Prop :=
  forall l w d t, In l signals -> In (w, d) l -> starts_at local w t ->
    exists s, ap_start p = Aware s /\ s <= t /\ t + d <= s + ap_duration p.
Definition fits (now : Z) (p : active_period) (st : status) : Prop :=
  exists t, ap_start p = Aware t /\ implied t (ap_duration p) (ap_ramp_up p) now st.

Definition C43_event_full : Prop := forall local now signals period ts d, one_each d ->
  make_event local now signals period ts d = Raise ValueError \/
  exists p ts' d' st, make_event local now signals period ts d = Ok (p, ts', d', st) /\ agree ts' d' /\ covers local p signals /\ fits now p st.

(** A given active period is not compared with the intervals. *)
Theorem C43_event_refuted : ~ C43_event_full.
Proof.
  intros F. destruct (F (fun w => w) 0 [[(Aware 100, 10)]] (Some (mk_ap (Aware 5) 1 None None None)) (Some [[("ven_id", SStr "a")]]) None) as [H|(p & ts' & d' & st & H & _ & C & _)].
  - intros x E. discriminate.
  - vm_compute in H. discriminate.
  - vm_compute in H. injection H as <- _ _ _. destruct (C [(Aware 100, 10)] (Aware 100) 10 100) as (s & E & L & U); [now left|now left|reflexivity|].
    simpl in E, U. injection E as <-. lia.
Qed.

(** Naive times are converted only after the period has been computed, so the
    claim is for a machine in a timezone with a fixed offset, or for aware
    times. *)
Definition one_kind (l : list (when * Z)) : Prop :=
  (forall w d, In (w, d) l -> exists t, w = Aware t) \/ (forall w d, In (w, d) l -> exists t, w = Naive t).

Theorem C43_event_partial : forall local now signals period ts d, one_each d ->
  match make_event local now signals period ts d with
  | Ok (p, ts', d', st) =>
      agree ts' d' /\ fits now p st /\ (forall x, ts = Some x -> ts' = x) /\ (forall x, d = Some x -> d' = x) /\
      (period = None -> (forall a b, local a - local b = a - b) -> covers local p signals) /\
      (period = None -> (forall l w d, In l signals -> In (w, d) l -> exists t, w = Aware t) -> covers local p signals) /\
      (forall q, period = Some q -> starts_at local (ap_start q) (match ap_start p with Aware t => t | Naive t => t end) /\ ap_duration p = ap_duration q)
  | Raise x => x = ValueError \/ (x = TypeError /\ ((ts = None /\ exists y, d = Some y /\ ~ all_known y) \/ (period = None /\ ~ one_kind (concat signals))))
  end.
Proof.
  intros local now signals period ts d W. unfold make_event.
  set (P := match period with Some p => Ok p | None => period_of_signals signals end).
  destruct P as [p|x] eqn:EP; cbn [bind].
  2:{ unfold P in EP. destruct period as [p|]; [discriminate|]. unfold period_of_signals in EP.
      destruct (concat signals) as [|q l] eqn:C; [left; congruence|].
      destruct (get_active_period_from_intervals (q :: l)) as [[s d0]|y] eqn:G; cbn [bind] in EP; [discriminate|]. injection EP as <-.
      right. assert (~ one_kind (q :: l)).
      { intros [A|A].
        - destruct (active_period_spec (q :: l) _ Aware ltac:(intros a b E; now injection E) ltac:(reflexivity) ltac:(reflexivity) A ltac:(discriminate) eq_refl) as (? & ? & E & _). congruence.
        - destruct (active_period_spec (q :: l) _ Naive ltac:(intros a b E; now injection E) ltac:(reflexivity) ltac:(reflexivity) A ltac:(discriminate) eq_refl) as (? & ? & E & _). congruence. }
      split; [|right; split; [reflexivity|assumption]].
      unfold get_active_period_from_intervals in G. destruct q as [w0 d0]. destruct (min_when w0 (map fst l)) as [?|z] eqn:MW; cbn [bind] in G; [discriminate|]. injection G as <-.
      clear - MW. revert w0 MW. induction l as [|a l IH]; intros w0 MW; simpl in MW; [discriminate|]. destruct (same_kind w0 (fst a)); [eauto|congruence]. }
  destruct (settle_targets ts d) as [[ts' d']|x] eqn:S; cbn [bind].
  2:{ destruct (settle_raise ts d x W S) as [H|(H & A)]; [now left|right; split; [assumption|now left]]. }
  destruct (settle_ok ts d _ W S) as (A & _ & B & C). simpl in A, B, C.
  pose proof (determine_implied local now p) as I. pose proof (determine_period local now p) as DP.
  destruct (determine_event_status local now p) as [st p'] eqn:D. simpl in I, DP. subst p'.
  split; [exact A|]. split; [exists (aware_start local p); split; [reflexivity|exact I]|]. split; [exact B|]. split; [exact C|].
  assert (Per : period = None -> forall s dd, get_active_period_from_intervals (concat signals) = Ok (s, dd) -> p = mk_ap s dd None None None).
  { intros -> s dd G. unfold P, period_of_signals in EP. destruct (concat signals) as [|q l]; [discriminate|]. rewrite G in EP. cbn [bind] in EP. congruence. }
  assert (NE : period = None -> concat signals <> []).
  { intros -> E. unfold P, period_of_signals in EP. rewrite E in EP. discriminate. }
  split; [|split].
  - intros PN L.
    assert (OK : exists s dd, get_active_period_from_intervals (concat signals) = Ok (s, dd)).
    { unfold P, period_of_signals in EP. rewrite PN in EP. specialize (NE PN). destruct (concat signals) as [|q l]; [now elim NE|].
      destruct (get_active_period_from_intervals (q :: l)) as [[s dd]|]; [eauto|discriminate]. }
    destruct OK as (s0 & dd0 & G).
    assert (OneK : one_kind (concat signals)).
    { destruct (existsb (fun q => match fst q with Aware _ => true | _ => false end) (concat signals)) eqn:EA; [|right].
      - destruct (existsb (fun q => match fst q with Naive _ => true | _ => false end) (concat signals)) eqn:EN; [|left].
        + exfalso. apply existsb_exists in EA as ([wa da] & IA & HA), EN as ([wn dn] & IN & HN). simpl in HA, HN. destruct wa; [|discriminate]. destruct wn; [discriminate|].
          rewrite (P_EventTime.C25_mixed (concat signals) t da w dn IA IN) in G. discriminate.
        + intros w d0 J. destruct w; [eauto|]. exfalso. apply not_true_iff_false in EN. apply EN. apply existsb_exists. exists (Naive w, d0). auto.
      - intros w d0 J. destruct w; [|eauto]. exfalso. apply not_true_iff_false in EA. apply EA. apply existsb_exists. exists (Aware t, d0). auto. }
    intros l w d0 t IL IW ST. assert (IC : In (w, d0) (concat signals)) by (apply in_concat; eauto).
    destruct OneK as [O|O].
    + destruct (active_period_spec (concat signals) _ Aware ltac:(intros a b E; now injection E) ltac:(reflexivity) ltac:(reflexivity) O (NE PN) eq_refl) as (s & dd & G' & Cov); destruct Cov as (_ & _ & Cov).
      rewrite (Per PN _ _ G'). destruct (O _ _ IC) as (u & ->). simpl in ST. subst u. exists s. split; [reflexivity|]. simpl.
      apply (Cov t d0). apply in_map_iff. exists (Aware t, d0). auto.
    + destruct (active_period_spec (concat signals) _ Naive ltac:(intros a b E; now injection E) ltac:(reflexivity) ltac:(reflexivity) O (NE PN) eq_refl) as (s & dd & G' & Cov); destruct Cov as (_ & _ & Cov).
      rewrite (Per PN _ _ G'). destruct (O _ _ IC) as (u & ->). simpl in ST. subst t. exists (local s). split; [reflexivity|]. simpl.
      assert (Q : s <= u /\ u + d0 <= s + dd) by (apply (Cov u d0); apply in_map_iff; exists (Naive u, d0); auto).
      specialize (L u s). lia.
  - intros PN AW l w d0 t IL IW ST. assert (IC : In (w, d0) (concat signals)) by (apply in_concat; eauto).
    assert (O : forall w d, In (w, d) (concat signals) -> exists t, w = Aware t) by (intros w1 d1 J; apply in_concat in J as (l1 & J1 & J2); eauto).
    destruct (active_period_spec (concat signals) _ Aware ltac:(intros a b E; now injection E) ltac:(reflexivity) ltac:(reflexivity) O (NE PN) eq_refl) as (s & dd & G' & Cov); destruct Cov as (_ & _ & Cov).
    rewrite (Per PN _ _ G'). destruct (O _ _ IC) as (u & ->). simpl in ST. subst u. exists s. split; [reflexivity|]. simpl.
    apply (Cov t d0). apply in_map_iff. exists (Aware t, d0). auto.
  - intros q E. unfold P in EP. rewrite E in EP. injection EP as <-. split; [|reflexivity]. simpl. unfold aware_start. destruct (ap_start q); reflexivity.
Qed.

Example C43_event_example :
  exists p ts d, make_event (fun w => w - 5) 120 [[(Aware 100, 10); (Aware 110, 30)]; [(Aware 90, 20)]] None None (Some [("ven_id", TList [SStr "a"])])
    = Ok (p, ts, d, Active) /\ ap_start p = Aware 90 /\ ap_duration p = 50 /\ target_values "ven_id" ts = [SStr "a"].
Proof.
  set (r := make_event _ _ _ _ _ _).
  exists (match r with Ok (p, _, _, _) => p | Raise _ => mk_ap (Aware 0) 0 None None None end),
         (match r with Ok (_, ts, _, _) => ts | Raise _ => [] end),
         (match r with Ok (_, _, d, _) => d | Raise _ => [] end).
  split; [|split; [|split]]; vm_compute; reflexivity.
Qed.

(** ** Opt *)
Definition opt_types : list string := ["optIn"; "optOut"].
Definition opt_reasons : list string :=
  ["economic"; "emergency"; "mustRun"; "notParticipating"; "outageRunStatus"; "overrideStatus"; "participating"; "x-schedule"].

Theorem C43_opt : forall now type reason event vavail created modification ts d mrid, one_each d ->
  match make_opt now type reason event vavail created modification ts d mrid with
  | Ok (c, m, ts', d') =>
      In type opt_types /\ In reason opt_reasons /\ (event = None <-> vavail = true) /\
      (forall x, mrid = Some x -> In x SIGNAL_TARGET_MRID_values \/ exists r, x = "x-" ++ r) /\
      agree ts' d' /\ (forall x, ts = Some x -> ts' = x) /\ (forall x, d = Some x -> d' = x) /\
      (forall x, created = Some x -> c = x) /\ (created = None -> c = now) /\ (forall x, modification = Some x -> m = x) /\ (modification = None -> m = 0)
  | Raise x => x = ValueError \/ (x = TypeError /\ ts = None /\ exists y, d = Some y /\ ~ all_known y)
  end.
Proof.
  intros now type reason event vavail created modification ts d mrid W. unfold make_opt.
  destruct (inb type OPT_values) eqn:T; cbn [negb]; [|now left]. apply inb_In in T.
  destruct (inb reason OPT_REASON_values) eqn:R; cbn [negb]; [|now left]. apply inb_In in R.
  set (bad := match mrid with Some m => _ | None => false end). destruct bad eqn:B; [now left|].
  assert (M : forall x, mrid = Some x -> In x SIGNAL_TARGET_MRID_values \/ exists r, x = "x-" ++ r).
  { intros x E. unfold bad in B. rewrite E in B. apply andb_false_iff in B as [B|B]; apply negb_false_iff in B; [left; now apply inb_In|right; now apply startswith_spec]. }
  assert (G : forall (E : event = None <-> vavail = true),
    match bind (settle_targets ts d) (fun '(ts, d) => Ok (match created with Some t => t | None => now end, match modification with Some m => m | None => 0 end, ts, d)) with
    | Ok (c, m, ts', d') =>
      In type opt_types /\ In reason opt_reasons /\ (event = None <-> vavail = true) /\
      (forall x, mrid = Some x -> In x SIGNAL_TARGET_MRID_values \/ exists r, x = "x-" ++ r) /\
      agree ts' d' /\ (forall x, ts = Some x -> ts' = x) /\ (forall x, d = Some x -> d' = x) /\
      (forall x, created = Some x -> c = x) /\ (created = None -> c = now) /\ (forall x, modification = Some x -> m = x) /\ (modification = None -> m = 0)
    | Raise x => x = ValueError \/ (x = TypeError /\ ts = None /\ exists y, d = Some y /\ ~ all_known y)
    end).
  { intros E. destruct (settle_targets ts d) as [[ts' d']|x] eqn:S; cbn [bind]; [|now apply settle_raise].
    destruct (settle_ok ts d _ W S) as (A & _ & A2 & A3). simpl in A, A2, A3.
    split; [exact T|]. split; [exact R|]. split; [exact E|]. split; [exact M|]. split; [exact A|]. split; [exact A2|]. split; [exact A3|].
    split; [intros x ->; reflexivity|]. split; [intros ->; reflexivity|]. split; [intros x ->; reflexivity|intros ->; reflexivity]. }
  destruct event as [e|], vavail; try (now left).
  - apply G. split; discriminate.
  - apply G. split; reflexivity.
Qed.

(** and it succeeds exactly then *)
Theorem C43_opt_accepts : forall now type reason event vavail created modification ts d mrid, one_each d ->
  ((exists r, make_opt now type reason event vavail created modification ts d mrid = Ok r) <->
   In type opt_types /\ In reason opt_reasons /\ (event = None <-> vavail = true) /\
   (forall x, mrid = Some x -> In x SIGNAL_TARGET_MRID_values \/ exists r, x = "x-" ++ r) /\
   match ts, d with
   | None, None => False
   | Some _, None => True
   | None, Some d => all_known d
   | Some ts, Some d => agree ts d /\ canonical d
   end).
Proof.
  intros now type reason event vavail created modification ts d mrid W. rewrite <- (settle_accepts ts d W). split.
  - intros ([[[c m] ts'] d'] & H). pose proof (C43_opt now type reason event vavail created modification ts d mrid W) as G. rewrite H in G.
    destruct G as (G1 & G2 & G3 & G4 & _). repeat (split; [assumption|]).
    unfold make_opt in H. destruct (negb _); [discriminate|]. destruct (negb _); [discriminate|]. destruct (match mrid with Some _ => _ | None => _ end); [discriminate|].
    destruct (settle_targets ts d) as [r|]; [eauto|]. destruct event, vavail; discriminate.
  - intros (T & R & E & M & ([ts' d'] & S)). unfold make_opt. apply inb_In in T, R. change opt_types with OPT_values in T. change opt_reasons with OPT_REASON_values in R. rewrite T, R. cbn [negb].
    assert (B : match mrid with Some m => negb (inb m SIGNAL_TARGET_MRID_values) && negb (startswith "x-" m) | None => false end = false).
    { destruct mrid as [m|]; [|reflexivity]. destruct (M m eq_refl) as [I|I].
      - apply inb_In in I. rewrite I. reflexivity.
      - apply startswith_spec in I. rewrite I. now rewrite andb_false_r. }
    rewrite B. rewrite S. cbn [bind]. destruct event as [e|], vavail; eauto.
    + destruct E as [_ E]. discriminate (E eq_refl).
    + destruct E as [E _]. discriminate (E eq_refl).
Qed.

Example C43_opt_example :
  exists ts d, make_opt 7 "optOut" "mustRun" (Some (SStr "e1")) false None None (Some [[("ven_id", SStr "a")]]) None (Some "x-boiler") = Ok (7, 0, ts, d) /\
    d = [("ven_id", TList [SStr "a"])].
Proof. exists [[("ven_id", SStr "a")]], [("ven_id", TList [SStr "a"])]. split; vm_compute; reflexivity. Qed.

Print Assumptions C43_signal_refuted.
Print Assumptions C43_signal_type_error.
Print Assumptions C43_signal_partial.
Print Assumptions C43_event_refuted.
Print Assumptions C43_event_partial.
Print Assumptions C43_opt.
Print Assumptions C43_opt_accepts.
