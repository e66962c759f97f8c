(** Enumerations: enums.py:17-200.

    The classes of enums.py are made by a metaclass of their own, which says
    which attributes of a class are its members. *)
From Coq Require Import ZArith String List Bool.
From Verif.Base Require Import Dict PyStr.
Import ListNotations.
Local Open Scope string_scope.

(** The body of a class: assignments, in order.  A later assignment to the same
    name wins. *)
Definition body : Type := list (string * string).
Definition namespace (b : body) : dict string string := fold_left (fun d kv => set String.eqb (fst kv) (snd kv) d) b [].

(** The names in dir(Enum), that is of type and of the metaclass itself, that do
    not start with an underscore (the others do not matter, see line 32). *)
Definition names_of_metaclass : list string := ["members"; "mro"; "values"].

(** sorted(...) of texts *)
Fixpoint insert (x : string) (l : list string) : list string :=
  match l with [] => [x] | y :: r => if String.leb x y then x :: l else y :: insert x r end.
Definition sorted (l : list string) : list string := fold_right insert [] l.

(** enums.py:28-32 members.  dir(self) has the names of the class body and of
    object; those of object start with an underscore. *)
Definition members (b : body) : list string :=
  sorted (filter (fun k => negb (existsb (String.eqb k) names_of_metaclass) && negb (startswith "_" k)) (map fst (namespace b))).

(** enums.py:24-26 __getitem__ and 34-36 values.  (getattr of a member finds it
    in the class body.) *)
Definition values (b : body) : list string :=
  flat_map (fun k => match get String.eqb k (namespace b) with Some v => [v] | None => [] end) (members b).

(** enums.py:47-58 *)
Definition SIGNAL_TYPE : body :=
  [("DELTA", "delta"); ("LEVEL", "level"); ("MULTIPLIER", "multiplier"); ("PRICE", "price"); ("PRICE_MULTIPLIER", "priceMultiplier");
   ("PRICE_RELATIVE", "priceRelative"); ("SETPOINT", "setpoint"); ("X_LOAD_CONTROL_CAPACITY", "x-loadControlCapacity");
   ("X_LOAD_CONTROL_LEVEL_OFFSET", "x-loadControlLevelOffset"); ("X_LOAD_CONTROL_PERCENT_OFFSET", "x-loadControlPercentOffset");
   ("X_LOAD_CONTROL_SETPOINT", "x-loadControlSetpoint")].
(** enums.py:61-72 *)
Definition SIGNAL_NAME : body :=
  [("SIMPLE", "SIMPLE"); ("simple", "simple"); ("ELECTRICITY_PRICE", "ELECTRICITY_PRICE"); ("ENERGY_PRICE", "ENERGY_PRICE");
   ("DEMAND_CHARGE", "DEMAND_CHARGE"); ("BID_PRICE", "BID_PRICE"); ("BID_LOAD", "BID_LOAD"); ("BID_ENERGY", "BID_ENERGY");
   ("CHARGE_STATE", "CHARGE_STATE"); ("LOAD_DISPATCH", "LOAD_DISPATCH"); ("LOAD_CONTROL", "LOAD_CONTROL")].
(** enums.py:75-86 *)
Definition SI_SCALE_CODE : body :=
  [("p", "p"); ("n", "n"); ("micro", "micro"); ("m", "m"); ("c", "c"); ("d", "d"); ("k", "k"); ("M", "M"); ("G", "G"); ("T", "T"); ("none", "none")].
(** enums.py:89-91 *)
Definition OPT : body := [("OPT_IN", "optIn"); ("OPT_OUT", "optOut")].
(** enums.py:94-102 *)
Definition OPT_REASON : body :=
  [("ECONOMIC", "economic"); ("EMERGENCY", "emergency"); ("MUST_RUN", "mustRun"); ("NOT_PARTICIPATING", "notParticipating");
   ("OUTAGE_RUN_STATUS", "outageRunStatus"); ("OVERRIDE_STATUS", "overrideStatus"); ("PARTICIPATING", "participating"); ("X_SCHEDULE", "x-schedule")].
(** enums.py:105-118 *)
Definition READING_TYPE : body :=
  [("DIRECT_READ", "Direct Read"); ("NET", "Net"); ("ALLOCATED", "Allocated"); ("ESTIMATED", "Estimated"); ("SUMMED", "Summed");
   ("DERIVED", "Derived"); ("MEAN", "Mean"); ("PEAK", "Peak"); ("HYBRID", "Hybrid"); ("CONTRACT", "Contract"); ("PROJECTED", "Projected");
   ("X_RMS", "x-RMS"); ("X_NOT_APPLICABLE", "x-notApplicable")].
(** enums.py:121-145 *)
Definition REPORT_TYPE : body :=
  [("READING", "reading"); ("USAGE", "usage"); ("DEMAND", "demand"); ("SET_POINT", "setPoint"); ("DELTA_USAGE", "deltaUsage");
   ("DELTA_SET_POINT", "deltaSetPoint"); ("DELTA_DEMAND", "deltaDemand"); ("BASELINE", "baseline"); ("DEVIATION", "deviation");
   ("AVG_USAGE", "avgUsage"); ("AVG_DEMAND", "avgDemand"); ("OPERATING_STATE", "operatingState");
   ("UP_REGULATION_CAPACITY_AVAILABLE", "upRegulationCapacityAvailable"); ("DOWN_REGULATION_CAPACITY_AVAILABLE", "downRegulationCapacityAvailable");
   ("REGULATION_SETPOINT", "regulationSetpoint"); ("STORED_ENERGY", "storedEnergy"); ("TARGET_ENERGY_STORAGE", "targetEnergyStorage");
   ("AVAILABLE_ENERGY_STORAGE", "availableEnergyStorage"); ("PRICE", "price"); ("LEVEL", "level"); ("POWER_FACTOR", "powerFactor");
   ("PERCENT_USAGE", "percentUsage"); ("PERCENT_DEMAND", "percentDemand"); ("X_RESOURCE_STATUS", "x-resourceStatus")].
(** enums.py:148-170 *)
Definition SIGNAL_TARGET_MRID : body :=
  [("THERMOSTAT", "Thermostat"); ("STRIP_HEATER", "Strip_Heater"); ("BASEBOARD_HEATER", "Baseboard_Heater"); ("WATER_HEATER", "Water_Heater");
   ("POOL_PUMP", "Pool_Pump"); ("SAUNA", "Sauna"); ("HOT_TUB", "Hot_tub"); ("SMART_APPLIANCE", "Smart_Appliance");
   ("IRRIGATION_PUMP", "Irrigation_Pump"); ("MANAGED_COMMERCIAL_AND_INDUSTRIAL_LOADS", "Managed_Commercial_and_Industrial_Loads");
   ("SIMPLE_RESIDENTIAL_ON_OFF_LOADS", "Simple_Residential_On_Off_Loads"); ("EXTERIOR_LIGHTING", "Exterior_Lighting");
   ("INTERIOR_LIGHTING", "Interior_Lighting"); ("ELECTRIC_VEHICLE", "Electric_Vehicle"); ("GENERATION_SYSTEMS", "Generation_Systems");
   ("LOAD_CONTROL_SWITCH", "Load_Control_Switch"); ("SMART_INVERTER", "Smart_Inverter"); ("EVSE", "EVSE"); ("RESU", "RESU");
   ("ENERGY_MANAGEMENT_SYSTEM", "Energy_Management_System"); ("SMART_ENERGY_MODULE", "Smart_Energy_Module"); ("STORAGE", "Storage")].
(** enums.py:173-181 *)
Definition REPORT_NAME : body :=
  [("METADATA_HISTORY_USAGE", "METADATA_HISTORY_USAGE"); ("HISTORY_USAGE", "HISTORY_USAGE");
   ("METADATA_HISTORY_GREENBUTTON", "METADATA_HISTORY_GREENBUTTON"); ("HISTORY_GREENBUTTON", "HISTORY_GREENBUTTON");
   ("METADATA_TELEMETRY_USAGE", "METADATA_TELEMETRY_USAGE"); ("TELEMETRY_USAGE", "TELEMETRY_USAGE");
   ("METADATA_TELEMETRY_STATUS", "METADATA_TELEMETRY_STATUS"); ("TELEMETRY_STATUS", "TELEMETRY_STATUS")].
