(** Vocabulary for C40 and C41. *)
From Coq Require Import ZArith String List Bool.
From Verif.Base Require Import Result PyStr.
From Verif.Model Require Import Measurements.
Import ListNotations.
Local Open Scope string_scope.

Definition contains_word (w s : string) : Prop := exists a b, s = a ++ w ++ b.

Definition complete_power (m : mdict) : Prop :=
  exists d, md_power m = PowerDict d /\ In "voltage" (map fst d) /\ In "ac" (map fst d) /\ In "hertz" (map fst d).

(** A measurement that may be reported. *)
Definition valid (m : mdict) : Prop :=
  exists name description unit,
    md_name m = Some name /\ md_description m = Some description /\ md_unit m = Some unit /\
    (forall required, In (name, required) measurement_descriptions ->
       lower description = lower required /\ exists units, In (name, units) acceptable_units /\ In unit units) /\
    (contains_word "power" name -> complete_power m).

(** How it is reported: with the name customUnit unless the name is predefined,
    with the predefined description, otherwise as it is. *)
Record corrected (m m' : mdict) : Prop := {
  c_unit : md_unit m' = md_unit m;
  c_scale : md_scale m' = md_scale m;
  c_power : md_power m' = md_power m;
  c_pulse : md_pulse m' = md_pulse m;
  c_ns : md_ns m' = md_ns m;
  c_known : forall name required, md_name m = Some name -> In (name, required) measurement_descriptions ->
              md_name m' = Some name /\ md_description m' = Some required;
  c_custom : forall name, md_name m = Some name -> ~ (exists required, In (name, required) measurement_descriptions) ->
              md_name m' = Some "customUnit" /\ md_description m' = md_description m }.
