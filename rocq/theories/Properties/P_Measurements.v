(** C40, C41: measurements. *)
From Coq Require Import ZArith String List Bool.
From Verif.Base Require Import Result Dict PyStr.
From Verif.Model Require Import Measurements Preflight.
From Verif.Spec Require Import MeasurementSpec PreflightSpec.
From Verif.Proofs Require Import MeasurementProofs PreflightProofs.
Import ListNotations.
Local Open Scope string_scope.
Local Open Scope Z_scope.

(** ** C40 *)

(** What preflight does to the measurement of a report description. *)
Definition sent (m : mdict) : result mdict := bind (validate_report_measurement_dict m) add_namespace.

Definition C40_claim (name d unit : string) : Prop :=
  (exists ns, In (name, ns) measurement_namespaces) /\
  (forall scale power pulse, md_name (Measurement name d unit scale power pulse) = Some name) /\
  (forall scale power pulse, (contains_word "power" name -> power <> None) ->
     exists m, sent (Measurement name d unit scale power pulse) = Ok m /\ md_name m = Some name).

Definition C40_full : Prop := forall name d units unit,
  In (name, d) measurement_descriptions -> In (name, units) acceptable_units -> In unit units -> C40_claim name d unit.

(** The namespace table says currencyPerWK where the other tables say
    currencyPerKW. *)
Theorem C40_predefined_measurements_refuted : ~ C40_full.
Proof.
  intros F. destruct (F "currencyPerKW" "currencyPerKW" currencies "EUR") as [(ns & I) _].
  - vm_compute. tauto.
  - right. left. reflexivity.
  - apply inb_iff. vm_compute. reflexivity.
  - simpl in I. intuition discriminate.
Qed.

(** It is sent as customUnit when made with Measurement, and refused when given
    as a dict. *)
Theorem C40_currency_per_kw : forall unit scale power pulse ns, In unit currencies ->
  (exists m, sent (Measurement "currencyPerKW" "currencyPerKW" unit scale power pulse) = Ok m /\ md_name m = Some "customUnit") /\
  sent (mk_md (Some "currencyPerKW") (Some "currencyPerKW") (Some unit) scale NoPower pulse ns) = Raise ValueError.
Proof.
  intros unit scale power pulse ns I. split.
  - eexists. split; [reflexivity|]. reflexivity.
  - unfold sent. assert (V : validate_report_measurement_dict (mk_md (Some "currencyPerKW") (Some "currencyPerKW") (Some unit) scale NoPower pulse ns) =
                    Ok (mk_md (Some "currencyPerKW") (Some "currencyPerKW") (Some unit) scale NoPower pulse ns)).
    { apply validate_ok. split.
      - exists "currencyPerKW", "currencyPerKW", unit. repeat (split; [reflexivity|]). split.
        + intros r Hr. apply descriptions_get in Hr. change (Some "currencyPerKW" = Some r) in Hr. injection Hr as <-. split; [reflexivity|].
          exists currencies. split; [right; left; reflexivity|assumption].
        + intros W. apply contains_spec in W. vm_compute in W. discriminate.
      - constructor; try reflexivity.
        + intros n r Hn Hr. injection Hn as <-. apply descriptions_get in Hr. change (Some "currencyPerKW" = Some r) in Hr. injection Hr as <-. split; reflexivity.
        + intros n Hn Hr. injection Hn as <-. exfalso. apply Hr. exists "currencyPerKW". apply descriptions_get. reflexivity. }
    rewrite V. reflexivity.
Qed.

(** All others are as claimed. *)
Theorem C40_predefined_measurements_partial : forall name d units unit,
  In (name, d) measurement_descriptions -> In (name, units) acceptable_units -> In unit units ->
  name <> "currencyPerKW" -> C40_claim name d unit.
Proof.
  intros name d units unit ID IU I N.
  assert (T : forallb (fun '(n, _) => String.eqb n "currencyPerKW" || mem String.eqb n measurement_namespaces) measurement_descriptions = true) by (vm_compute; reflexivity).
  rewrite forallb_forall in T. specialize (T _ ID). simpl in T. destruct (String.eqb_spec name "currencyPerKW") as [|_]; [contradiction|]. simpl in T.
  assert (NM : forall scale power pulse, md_name (Measurement name d unit scale power pulse) = Some name) by (intros; unfold Measurement; rewrite T; reflexivity).
  assert (NS : exists ns, In (name, ns) measurement_namespaces).
  { unfold mem in T. destruct (get String.eqb name measurement_namespaces) as [ns|] eqn:G; [|discriminate]. exists ns. now apply namespaces_get. }
  split; [exact NS|]. split; [exact NM|].
  intros scale power pulse P. set (m := Measurement name d unit scale power pulse).
  assert (V : validate_report_measurement_dict m = Ok m).
  { apply validate_ok. split.
    - exists name, d, unit. split; [apply NM|]. repeat (split; [reflexivity|]). split.
      + intros r Hr. apply descriptions_get in Hr. apply descriptions_get in ID. assert (r = d) by congruence. subst r. split; [reflexivity|]. eauto.
      + intros W. specialize (P W). destruct power as [[[hz v] ac]|]; [|now elim P].
        eexists. split; [reflexivity|]. simpl. tauto.
    - constructor; try reflexivity.
      + intros n r Hn Hr. rewrite (NM scale power pulse : md_name m = _) in Hn. injection Hn as <-. split; [apply NM|].
        apply descriptions_get in Hr. apply descriptions_get in ID. change (Some d = Some r). congruence.
      + intros n Hn Hr. rewrite (NM scale power pulse : md_name m = _) in Hn. injection Hn as <-. exfalso. apply Hr. eauto. }
  destruct (proj2 (add_namespace_known m)) as (m' & A).
  { destruct NS as (ns & J). exists name, ns. split; [apply NM|assumption]. }
  exists m'. split; [unfold sent; rewrite V; exact A|]. apply add_namespace_ok in A. rewrite (pm_name _ _ A). apply NM.
Qed.

(** Every member of MEASUREMENTS (enums.py:276-416) but one. *)
Theorem C40_members_partial : forall m, In m measurements -> fst (fst (fst (fst m))) <> "CURRENCY_PER_KW" ->
  sent (member m) = Ok (member m) /\ md_name (member m) = Some (snd (fst (fst (fst m)))).
Proof.
  intros m I N.
  assert (T : forallb (fun m => String.eqb (fst (fst (fst (fst m)))) "CURRENCY_PER_KW" ||
     match sent (member m) with
     | Ok m' => match md_name m', md_name (member m), md_ns m', md_ns (member m), md_description m', md_description (member m) with
                | Some a, Some b, Some c, Some d, Some e, Some f => String.eqb a b && String.eqb c d && String.eqb e f && String.eqb b (snd (fst (fst (fst m))))
                | _, _, _, _, _, _ => false end
     | Raise _ => false end) measurements = true) by (vm_compute; reflexivity).
  rewrite forallb_forall in T. specialize (T _ I). destruct (String.eqb_spec (fst (fst (fst (fst m)))) "CURRENCY_PER_KW"); [contradiction|]. simpl in T.
  unfold sent in *. destruct (validate_report_measurement_dict (member m)) as [m1|] eqn:V; [|discriminate]. cbn [bind] in *.
  apply validate_ok in V as [_ [E1 E2 E3 E4 E5 _ _]].
  destruct (add_namespace m1) as [m'|] eqn:A; [|discriminate].
  apply add_namespace_ok in A as [F1 F2 F3 F4 F5 F6 _].
  destruct (md_name m') as [a|] eqn:X1; [|discriminate]. destruct (md_name (member m)) as [b|] eqn:X2; [|discriminate].
  destruct (md_ns m') as [c|] eqn:X3; [|discriminate]. destruct (md_ns (member m)) as [d|] eqn:X4; [|discriminate].
  destruct (md_description m') as [e|] eqn:X5; [|discriminate]. destruct (md_description (member m)) as [f|] eqn:X6; [|discriminate].
  rewrite !andb_true_iff, !String.eqb_eq in T. destruct T as [[[-> ->] ->] ->].
  split; [|reflexivity]. f_equal. destruct m', (member m), m1; simpl in *; congruence.
Qed.

Example C40_example : exists m, sent (Measurement "temperature" "temperature" "celsius" (Some "k") None None) = Ok m /\ md_ns m = Some "oadr".
Proof. exists (Measurement "temperature" "temperature" "celsius" (Some "k") None None). split; vm_compute; reflexivity. Qed.

(** ** C41 *)
Theorem C41_validation : forall m m', validate_report_measurement_dict m = Ok m' <-> valid m /\ corrected m m'.
Proof. exact validate_ok. Qed.

Theorem C41_accepted_name : forall m m', validate_report_measurement_dict m = Ok m' ->
  exists name, md_name m' = Some name /\ (name = "customUnit" \/ exists d, In (name, d) measurement_descriptions /\ md_description m' = Some d).
Proof.
  intros m m' H. apply validate_ok in H as [(name & d & u & N & _) C].
  destruct (get String.eqb name measurement_descriptions) as [req|] eqn:G.
  - apply descriptions_get in G. destruct (c_known _ _ C name req N G) as [A B]. exists name. split; [assumption|]. right. exists req. auto.
  - exists "customUnit". split; [|now left]. apply (c_custom _ _ C name N). intros (r & I). apply descriptions_get in I. congruence.
Qed.

(** A refusal is a ValueError, unless power_attributes is None. *)
Theorem C41_refusal : forall m x, validate_report_measurement_dict m = Raise x ->
  ~ valid m /\ (x = ValueError \/ (x = TypeError /\ md_power m = PowerNone)).
Proof.
  intros m x H. split; [|now apply validate_raise].
  intros V.
  assert (E : exists m', corrected m m').
  { destruct V as (name & d & u & N & D & _).
    destruct (get String.eqb name measurement_descriptions) as [req|] eqn:G.
    - exists (set_md_description (Some req) m). constructor; try reflexivity.
      + intros n r Hn Hr. apply descriptions_get in Hr. assert (n = name) by congruence. subst n. rewrite G in Hr. injection Hr as <-. split; [exact Hn|reflexivity].
      + intros n Hn Hr. exfalso. apply Hr. exists req. apply descriptions_get. congruence.
    - exists (set_md_name (Some "customUnit") m). constructor; try reflexivity.
      + intros n r Hn Hr. apply descriptions_get in Hr. congruence.
      + intros n Hn Hr. split; reflexivity. }
  destruct E as (m' & C). assert (validate_report_measurement_dict m = Ok m') by (apply validate_ok; auto). congruence.
Qed.

Example C41_example :
  validate_report_measurement_dict (mk_md (Some "voltage") (Some "VOLTAGE") (Some "V") None NoPower None None)
    = Ok (mk_md (Some "voltage") (Some "Voltage") (Some "V") None NoPower None None) /\
  validate_report_measurement_dict (mk_md (Some "horsepower") (Some "x") (Some "hp") None NoPower None None) = Raise ValueError /\
  validate_report_measurement_dict (Measurement "powerReal" "RealPower" "W" None None None) = Raise TypeError.
Proof. vm_compute. auto. Qed.

Print Assumptions C40_predefined_measurements_refuted.
Print Assumptions C40_currency_per_kw.
Print Assumptions C40_predefined_measurements_partial.
Print Assumptions C40_members_partial.
Print Assumptions C41_validation.
Print Assumptions C41_accepted_name.
Print Assumptions C41_refusal.
