From Coq Require Import ZArith String List Bool Lia.
From Verif.Base Require Import Result Dict PyStr ListExtra.
From Verif.Model Require Import Objects Members Measurements Preflight.
From Verif.Spec Require Import MeasurementSpec.
Import ListNotations.
Local Open Scope string_scope.
Local Open Scope Z_scope.

Lemma inb_iff x l : inb x l = true <-> In x l.
Proof.
  unfold inb. rewrite existsb_exists. split.
  - intros (y & I & E). apply String.eqb_eq in E. now subst.
  - intros I. exists x. split; [assumption|apply String.eqb_refl].
Qed.

Ltac nodup_strings := vm_compute; repeat constructor; simpl; intuition discriminate.

Lemma descriptions_get name d : get String.eqb name measurement_descriptions = Some d <-> In (name, d) measurement_descriptions.
Proof. split; [apply (get_in String.eqb String.eqb_eq)|]. apply (in_get_nodup String.eqb String.eqb_eq). nodup_strings. Qed.

Lemma units_nodup : NoDup (keys acceptable_units).
Proof. nodup_strings. Qed.

Lemma units_get name u : get String.eqb name acceptable_units = Some u <-> In (name, u) acceptable_units.
Proof. split; [apply (get_in String.eqb String.eqb_eq)|]. apply (in_get_nodup String.eqb String.eqb_eq), units_nodup. Qed.

Lemma units_of_described name d : In (name, d) measurement_descriptions -> exists us, In (name, us) acceptable_units.
Proof.
  intros I.
  assert (H : forallb (fun '(n, _) => mem String.eqb n acceptable_units) measurement_descriptions = true) by (vm_compute; reflexivity).
  rewrite forallb_forall in H. specialize (H _ I). simpl in H. unfold mem in H. destruct (get String.eqb name acceptable_units) as [us|] eqn:G; [|discriminate].
  exists us. now apply units_get.
Qed.

Lemma check_power_ok name m : check_power name m = Ok tt <-> (contains_word "power" name -> complete_power m).
Proof.
  unfold check_power, contains_word, complete_power. destruct (contains "power" name) eqn:C.
  - apply contains_spec in C. destruct (md_power m) as [| |d].
    + split; [discriminate|]. intros H. destruct (H C) as (d & E & _). discriminate.
    + split; [discriminate|]. intros H. destruct (H C) as (d & E & _). discriminate.
    + assert (K : forall k, mem String.eqb k d = true <-> In k (map fst d)) by (intros k; apply (mem_in String.eqb String.eqb_eq)).
      split.
      * intros H _. exists d. split; [reflexivity|]. rewrite <- !K.
        destruct (mem String.eqb "voltage" d), (mem String.eqb "ac" d), (mem String.eqb "hertz" d); cbn in H; try discriminate. auto.
      * intros H. destruct (H C) as (d' & E & A & B & D). injection E as <-. rewrite <- K in A, B, D. rewrite A, B, D. reflexivity.
  - split; [|reflexivity]. intros _ H. apply contains_spec in H. congruence.
Qed.

Lemma check_power_set f name m : md_power (f m) = md_power m -> check_power name (f m) = check_power name m.
Proof. unfold check_power. now intros ->. Qed.

Lemma validate_ok m m' : validate_report_measurement_dict m = Ok m' <-> valid m /\ corrected m m'.
Proof.
  unfold validate_report_measurement_dict, valid.
  destruct (md_name m) as [name|] eqn:N; [|split; [discriminate|intros [(n & d & u & E & _) _]; discriminate]].
  destruct (md_description m) as [d|] eqn:D; [|split; [discriminate|intros [(n & d & u & _ & E & _) _]; discriminate]].
  destruct (md_unit m) as [u|] eqn:U; [|split; [discriminate|intros [(n & d' & u & _ & _ & E & _) _]; discriminate]].
  assert (CP : forall m1, md_power m1 = md_power m -> check_power name m1 = check_power name m) by (intros m1 E; unfold check_power; now rewrite E).
  destruct (get String.eqb name measurement_descriptions) as [req|] eqn:G.
  - pose proof (proj1 (descriptions_get _ _) G) as ID. destruct (units_of_described _ _ ID) as (us & IU). pose proof (proj2 (units_get _ _) IU) as GU.
    rewrite GU.
    assert (Fun : forall req', In (name, req') measurement_descriptions -> req' = req) by (intros r H; apply descriptions_get in H; congruence).
    assert (FunU : forall us', In (name, us') acceptable_units -> us' = us) by (intros r H; apply units_get in H; congruence).
    assert (Shape : forall m1, (m1 = m /\ d = req) \/ (m1 = set_md_description (Some req) m /\ lower d = lower req) ->
      (bind (if inb u us then Ok m1 else Raise ValueError) (fun m0 => bind (check_power name m0) (fun _ => Ok m0)) = Ok m' <->
       (exists name0 d0 u0, Some name = Some name0 /\ Some d = Some d0 /\ Some u = Some u0 /\
         (forall required, In (name0, required) measurement_descriptions -> lower d0 = lower required /\ (exists units, In (name0, units) acceptable_units /\ In u0 units)) /\
         (contains_word "power" name0 -> complete_power m)) /\ corrected m m')).
    { intros m1 Hm1.
      assert (P1 : md_power m1 = md_power m) by (destruct Hm1 as [[-> _]|[-> _]]; reflexivity).
      assert (LR : lower d = lower req) by (destruct Hm1 as [[_ ->]|[_ E]]; [reflexivity|exact E]).
      assert (C1 : forall m2, corrected m m2 <-> m2 = m1).
      { intros m2. split.
        - intros [E1 E2 E3 E4 E5 E7 E8]. rewrite (proj1 (E7 name req N ID)) in *. destruct (E7 name req N ID) as [H1 H2].
          destruct Hm1 as [[-> E]|[-> E]].
          + destruct m, m2; simpl in *. subst. congruence.
          + destruct m, m2; simpl in *. unfold set_md_description; simpl. subst. congruence.
        - intros ->. destruct Hm1 as [[-> E]|[-> E]]; constructor; try reflexivity.
          + intros n r Hn Hr. assert (n = name) by congruence. subst n. rewrite (Fun r Hr). split; [exact Hn|congruence].
          + intros n Hn Hr. assert (n = name) by congruence. subst n. exfalso. apply Hr. now exists req.
          + intros n r Hn Hr. assert (n = name) by congruence. subst n. rewrite (Fun r Hr). split; [exact Hn|reflexivity].
          + intros n Hn Hr. assert (n = name) by congruence. subst n. exfalso. apply Hr. now exists req. }
      rewrite C1. destruct (inb u us) eqn:B; cbn [bind].
      - apply inb_iff in B. rewrite (CP m1 P1). destruct (check_power name m) as [[]|x] eqn:CK; cbn [bind].
        + pose proof (proj1 (check_power_ok _ _) CK) as CK'. split.
          * intros H. injection H as <-. split; [|reflexivity]. exists name, d, u. repeat (split; [reflexivity|]). split; [|exact CK'].
            intros r Hr. rewrite (Fun r Hr). split; [exact LR|]. eauto.
          * intros [_ ->]. reflexivity.
        + split; [discriminate|]. intros [(n & d' & u' & E1 & E2 & E3 & _ & HP) _]. injection E1 as <-. apply check_power_ok in HP. congruence.
      - split; [discriminate|]. intros [(n & d' & u' & E1 & E2 & E3 & HD & _) _]. injection E1 as <-. injection E3 as <-.
        destruct (HD req ID) as (_ & us' & H1 & H2). rewrite (FunU us' H1) in H2. apply inb_iff in H2. congruence. }
    destruct (String.eqb_spec d req) as [E|NE]; cbn [bind]; [apply Shape; auto|].
    destruct (String.eqb_spec (lower d) (lower req)) as [E|NL]; cbn [bind]; [apply Shape; auto|].
    split; [discriminate|]. intros [(n & d' & u' & E1 & E2 & E3 & HD & _) _]. injection E1 as <-. injection E2 as <-. destruct (HD req ID) as [H _]. contradiction.
  - cbn [bind].
    assert (NI : ~ exists r, In (name, r) measurement_descriptions) by (intros (r & H); apply descriptions_get in H; congruence).
    set (m1 := if String.eqb name "customUnit" then m else set_md_name (Some "customUnit") m).
    assert (P1 : md_power m1 = md_power m) by (unfold m1; destruct (String.eqb name "customUnit"); reflexivity).
    assert (C1 : forall m2, corrected m m2 <-> m2 = m1).
    { intros m2. unfold m1. split.
      - intros [E1 E2 E3 E4 E5 E7 E8]. destruct (E8 name N NI) as [H1 H2]. destruct (String.eqb_spec name "customUnit") as [->|Q];
        destruct m, m2; simpl in *; unfold set_md_name; simpl; congruence.
      - intros ->. destruct (String.eqb_spec name "customUnit") as [->|Q]; constructor; try reflexivity.
        + intros n r Hn Hr. exfalso. apply NI. exists r. congruence.
        + intros n Hn Hr. split; [congruence|reflexivity].
        + intros n r Hn Hr. exfalso. apply NI. exists r. congruence.
        + intros n Hn Hr. split; reflexivity. }
    rewrite (CP m1 P1), C1. destruct (check_power name m) as [[]|x] eqn:CK; cbn [bind].
    + pose proof (proj1 (check_power_ok _ _) CK) as CK'. split.
      * intros H. injection H as <-. split; [|reflexivity]. exists name, d, u. repeat (split; [reflexivity|]). split; [|exact CK'].
        intros r Hr. exfalso. eauto.
      * intros [_ ->]. reflexivity.
    + split; [discriminate|]. intros [(n & d' & u' & E1 & E2 & E3 & _ & HP) _]. injection E1 as <-. apply check_power_ok in HP. congruence.
Qed.

Lemma validate_raise m x : validate_report_measurement_dict m = Raise x -> x = ValueError \/ (x = TypeError /\ md_power m = PowerNone).
Proof.
  unfold validate_report_measurement_dict.
  destruct (md_name m) as [name|] eqn:N; [|left; congruence].
  destruct (md_description m) as [d|] eqn:D; [|left; congruence].
  destruct (md_unit m) as [u|] eqn:U; [|left; congruence].
  assert (CP : forall m1 x, md_power m1 = md_power m -> check_power name m1 = Raise x -> x = ValueError \/ (x = TypeError /\ md_power m = PowerNone)).
  { intros m1 y E. unfold check_power. rewrite E. destruct (contains "power" name); [|discriminate]. destruct (md_power m); try (intros H; injection H as <-; auto; fail).
    destruct (_ || _); [|discriminate]. intros H; injection H as <-; auto. }
  destruct (get String.eqb name measurement_descriptions) as [req|] eqn:G.
  - pose proof (proj1 (descriptions_get _ _) G) as ID. destruct (units_of_described _ _ ID) as (us & IU). pose proof (proj2 (units_get _ _) IU) as GU. rewrite GU.
    destruct (String.eqb d req); cbn [bind].
    + destruct (inb u us); cbn [bind]; [|left; congruence]. destruct (check_power name m) as [|y] eqn:CK; cbn [bind]; [discriminate|]. intros H; injection H as <-. exact (CP m y eq_refl CK).
    + destruct (String.eqb _ _); cbn [bind]; [|left; congruence].
      destruct (inb u us); cbn [bind]; [|left; congruence]. destruct (check_power name _) as [|y] eqn:CK; cbn [bind]; [discriminate|]. intros H; injection H as <-. exact (CP _ y eq_refl CK).
  - cbn [bind]. destruct (check_power name _) as [|y] eqn:CK; cbn [bind]; [discriminate|]. intros H; injection H as <-.
    refine (CP _ y _ CK). destruct (String.eqb name "customUnit"); reflexivity.
Qed.
