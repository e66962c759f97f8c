(** Vocabulary for C28-C29: what add_event is asked to do. *)
From Coq Require Import ZArith String List Bool.
From Verif.Base Require Import Result.
From Verif.Model Require Import Objects Members EventService Server.
From Verif.Spec Require Import EventSpec.
Import ListNotations.
Local Open Scope string_scope.
Local Open Scope Z_scope.

Definition openadr_signal_types : list string :=
  ["delta"; "level"; "multiplier"; "price"; "priceMultiplier"; "priceRelative"; "setpoint"; "x-loadControlCapacity";
   "x-loadControlLevelOffset"; "x-loadControlPercentOffset"; "x-loadControlSetpoint"].
Definition openadr_signal_names : list string :=
  ["SIMPLE"; "simple"; "ELECTRICITY_PRICE"; "ENERGY_PRICE"; "DEMAND_CHARGE"; "BID_PRICE"; "BID_LOAD"; "BID_ENERGY";
   "CHARGE_STATE"; "LOAD_DISPATCH"; "LOAD_CONTROL"].

Definition valid_name (n : string) : Prop := In n openadr_signal_names \/ exists rest, n = "x-" ++ rest.

(** The arguments, and the callback's signature, are acceptable; [l] are the
    intervals. *)
Definition acceptable (a : add_args) (cb : option callback) (sig_ok : bool) (l : list interval) : Prop :=
  (aa_response a = "always" \/ aa_response a = "never") /\ In (aa_type a) openadr_signal_types /\ valid_name (aa_name a) /\
  aa_intervals a = ListOfIntervals l /\ l <> [] /\
  (aa_response a = "always" -> forall n, cb = Some (CFun n) -> sig_ok = true).

(** The targets: the single target, else the ungrouped targets_by_type, else
    the given targets, else the VEN itself. *)
Inductive targets_for (v : scalar) (a : add_args) : list target -> Prop :=
| tf_target t : aa_target a = Some t -> targets_for v a [t]
| tf_tbt tbt : aa_target a = None -> aa_tbt a = Some tbt -> targets_for v a (ungroup_targets_by_type tbt)
| tf_list l : aa_target a = None -> aa_tbt a = None -> aa_targets a = Some (ListOfTargets l) -> targets_for v a l
| tf_one t : aa_target a = None -> aa_tbt a = None -> aa_targets a = Some (OneTarget t) -> targets_for v a [t]
| tf_ven : aa_target a = None -> aa_tbt a = None -> aa_targets a = None -> targets_for v a [[("ven_id", v)]].

(** The same interval with its start as an instant. *)
Definition same_interval (local : Z -> Z) (i j : interval) : Prop :=
  (exists t, starts_at local (iv_start i) t /\ iv_start j = Aware t) /\
  iv_duration j = iv_duration i /\ iv_payload j = iv_payload i /\ iv_uid j = iv_uid i.
Definition timed (i : interval) (p : Z * Z) : Prop := iv_start i = Aware (fst p) /\ iv_duration i = snd p.

Definition empty_id (id : scalar) : Prop := id = SNone \/ id = SBool false \/ id = SInt 0 \/ id = SStr "" \/ exists n, id = SDec 0 n.
