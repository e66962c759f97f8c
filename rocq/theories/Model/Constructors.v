(** The constructors of EventSignal, Event and Opt: objects.py:164-235 and
    325-378.

    A target is given as the dict that asdict makes of it (a dict stays as it
    is); targets_by_type is a dict.  The members that the constructors only
    store are left out. *)
From Coq Require Import ZArith String List Bool.
From Verif.Base Require Import Result Dict PyStr.
From Verif.Model Require Import Objects EventTime Members Server Preflight.
Import ListNotations.
Local Open Scope string_scope.
Local Open Scope Z_scope.

(** objects.py:71-85 the fields of Target *)
Definition target_fields : list string :=
  ["aggregated_p_node"; "end_device_asset"; "meter_asset"; "p_node"; "service_area"; "service_delivery_point"; "service_location";
   "transport_interface"; "group_id"; "group_name"; "resource_id"; "ven_id"; "party_id"].

(** Target( **target ) as asdict shows it; TypeError for an unexpected keyword. *)
Definition make_target (t : target) : result target :=
  if forallb (fun '(k, _) => inb k target_fields) t
  then Ok (map (fun f => (f, match get String.eqb f t with Some v => v | None => SNone end)) target_fields)
  else Raise TypeError.

Definition tbt_of (g : dict string (list scalar)) : dict string tval := map (fun '(k, l) => (k, TList l)) g.

(** objects.py:175-198 EventSignal.__post_init__: the new targets and
    targets_by_type. *)
Definition make_signal (name type : string) (targets : option (list target)) (tbt : option (dict string tval))
  : result (option (list target) * option (dict string tval)) :=
  if negb (inb type SIGNAL_TYPE_values) then Raise ValueError
  else if negb (inb name SIGNAL_NAME_values) && negb (startswith "x-" name) then Raise ValueError
  else match targets, tbt with
       | None, None => Ok (None, None)
       | Some ts, None => if (1 <? length (group_targets_by_type ts))%nat then Raise ValueError else Ok (Some ts, None)
       | None, Some d => bind (mapM make_target (ungroup_targets_by_type d)) (fun ts => Ok (Some ts, Some d))
       | Some ts, Some d => if tbt_eqb (group_targets_by_type ts) d then Ok (Some ts, Some d) else Raise ValueError
       end.

(** objects.py:220-233 (Event) and 358-378 (Opt) *)
Definition settle_targets (targets : option (list target)) (tbt : option (dict string tval))
  : result (list target * dict string tval) :=
  match targets, tbt with
  | None, None => Raise ValueError
  | Some ts, None => Ok (ts, tbt_of (group_targets_by_type ts))
  | None, Some d => bind (mapM make_target (ungroup_targets_by_type d)) (fun ts => Ok (ts, d))
  | Some ts, Some d => if tbt_eqb (group_targets_by_type ts) d then Ok (ts, d) else Raise ValueError
  end.

(** objects.py:210-219: the same computation as
    utils.get_active_period_from_intervals, but min of nothing is a ValueError.
    Durations are timedeltas. *)
Definition period_of_signals (signals : list (list (when * Z))) : result active_period :=
  match concat signals with
  | [] => Raise ValueError
  | l => bind (get_active_period_from_intervals l) (fun '(start, duration) => Ok (mk_ap start duration None None None))
  end.

(** objects.py:210-235 Event.__post_init__: the active period, targets,
    targets_by_type and status. *)
Definition make_event (local : Z -> Z) (now : Z) (signals : list (list (when * Z))) (period : option active_period)
    (targets : option (list target)) (tbt : option (dict string tval))
  : result (active_period * list target * dict string tval * status) :=
  bind (match period with Some p => Ok p | None => period_of_signals signals end) (fun p =>
  bind (settle_targets targets tbt) (fun '(ts, d) =>
  let '(st, p) := determine_event_status local now p in
  Ok (p, ts, d, st))).

(** enums.py:89-102 and 148-170 *)
Definition OPT_values : list string := ["optIn"; "optOut"].
Definition OPT_REASON_values : list string :=
  ["economic"; "emergency"; "mustRun"; "notParticipating"; "outageRunStatus"; "overrideStatus"; "participating"; "x-schedule"].
Definition SIGNAL_TARGET_MRID_values : list string :=
  ["Thermostat"; "Strip_Heater"; "Baseboard_Heater"; "Water_Heater"; "Pool_Pump"; "Sauna"; "Hot_tub"; "Smart_Appliance"; "Irrigation_Pump";
   "Managed_Commercial_and_Industrial_Loads"; "Simple_Residential_On_Off_Loads"; "Exterior_Lighting"; "Interior_Lighting"; "Electric_Vehicle";
   "Generation_Systems"; "Load_Control_Switch"; "Smart_Inverter"; "EVSE"; "RESU"; "Energy_Management_System"; "Smart_Energy_Module"; "Storage"].

(** objects.py:340-378 Opt.__post_init__: the new creation time, modification
    number, targets and targets_by_type; [vavailability]: whether one is given. *)
Definition make_opt (now : Z) (opt_type opt_reason : string) (event_id : option scalar) (vavailability : bool)
    (created modification : option Z) (targets : option (list target)) (tbt : option (dict string tval)) (mrid : option string)
  : result (Z * Z * list target * dict string tval) :=
  if negb (inb opt_type OPT_values) then Raise ValueError
  else if negb (inb opt_reason OPT_REASON_values) then Raise ValueError
  else if match mrid with Some m => negb (inb m SIGNAL_TARGET_MRID_values) && negb (startswith "x-" m) | None => false end then Raise ValueError
  else match event_id, vavailability with
       | None, false | Some _, true => Raise ValueError
       | _, _ =>
         bind (settle_targets targets tbt) (fun '(ts, d) =>
         Ok (match created with Some t => t | None => now end, match modification with Some m => m | None => 0 end, ts, d))
       end.
