(** Members of messages for which there is a choice of values: what the
    functions and classes of the package take, and what the OpenADR schema
    takes. *)
From Coq Require Import ZArith String Ascii List Bool.
From Verif.Base Require Import Result Dict PyStr.
From Verif.Model Require Import Objects Server Constructors Measurements ClientReports Xml Schema SchemaTypes.
From Verif.Spec Require Import AcceptedSpec.
Import ListNotations.
Local Open Scope string_scope.

Inductive choice :=
| SignalName | SignalType | ResponseRequired     (* of an event that a VTN adds *)
| ReportName | ReadingType | ReportType | Scale  (* of a report that a VEN adds *)
| OptType | OptReason                            (* of an opt *)
| Unit (name : string).                          (* of a measurement with this name *)

(** The measurements that there are. *)
Definition measures : list string :=
  ["currency"; "currencyPerKW"; "currencyPerKWh"; "currencyPerThm"; "current"; "energyApparent"; "energyReactive"; "energyReal"; "frequency";
   "powerApparent"; "powerReactive"; "powerReal"; "pulseCount"; "temperature"; "Therm"; "voltage"; "customUnit"].
Definition is_choice (f : choice) : Prop := match f with Unit n => In n measures | _ => True end.

(** An event with one signal. *)
Definition event_is_added (a : add_args) : Prop := exists local gen now v e, event_of_args local gen now v a = Ok e.
Definition signal_is_made (name type : string) : Prop := exists targets tbt x, make_signal name type targets tbt = Ok x.
Definition report_is_added (q : areq) : Prop := exists specifier rid st ids, snd (add_report q specifier rid st) = Ok ids.
Definition opt_is_made (type reason : string) : Prop :=
  exists now event availability created modification targets tbt mrid x, make_opt now type reason event availability created modification targets tbt mrid = Ok x.
(** A report with this measurement can be offered. *)
Definition measurement_is_taken (m : mdict) : Prop := exists n k, validate_report_measurement_dict m = Ok n /\ add_namespace n = Ok k.

(** The package takes [s], at least together with some other arguments. *)
Definition takes (f : choice) (s : string) : Prop :=
  match f with
  | SignalName => (exists a, aa_name a = s /\ event_is_added a) \/ (exists type, signal_is_made s type)
  | SignalType => (exists a, aa_type a = s /\ event_is_added a) \/ (exists name, signal_is_made name s)
  | ResponseRequired => exists a, aa_response a = s /\ event_is_added a
  | ReportName => exists q, q_name q = s /\ report_is_added q
  | ReadingType => exists q, q_reading q = s /\ report_is_added q
  | ReportType => exists q, q_type q = s /\ report_is_added q
  | Scale => exists q, q_scale q = Some s /\ report_is_added q
  | OptType => exists reason, opt_is_made s reason
  | OptReason => exists type, opt_is_made type s
  | Unit n => exists m, md_name m = Some n /\ md_unit m = Some s /\ measurement_is_taken m
  end.

(** The schema allows [s]. *)
Section Schema.
Variable uri : string -> bool.
Definition has_unit (t : ty) (u : string) : Prop :=
  match t with
  | Complex _ ps => exists p n t, In p ps /\ In (n, t) (p_alts p) /\ In n [in_power "itemUnits"; in_oadr "itemUnits"] /\ valid uri (fun _ => false) (Elem n [] u []) t = true
  | _ => False
  end.
Definition allows (f : choice) (s : string) : Prop :=
  match f with
  | SignalName => fits uri ei_signalNameType s = true
  | SignalType => fits uri ei_SignalTypeEnumeratedType s = true
  | ResponseRequired => fits uri oadr_ResponseRequiredType s = true
  | ReportName => fits uri ei_reportNameType s = true
  | ReadingType => fits uri ei_ReadingTypeType s = true
  | ReportType => fits uri ei_ReportTypeType s = true
  | Scale => fits uri scale_SiScaleCodeType s = true
  | OptType => fits uri ei_OptTypeType s = true
  | OptReason => fits uri ei_OptReasonType s = true
  | Unit n => exists e, In e measurement_elements /\ In (fst e) [in_power n; in_oadr n] /\ has_unit (snd e) s
  end.
End Schema.

(** A text without surplus white space. *)
Definition tidy (s : string) : Prop := s <> "" /\ reads s s.

(** The choices for which x- and a name of one's own are taken. *)
Definition open_choice (f : choice) : Prop := In f [SignalName; ReportName; ReadingType; ReportType].
(** x- without a name. *)
Definition nameless (s : string) : Prop := s = "x-" \/ exists c r, s = "x-" ++ String c r /\ spacing c.

(** What the schema allows and the package does not know. *)
Inductive unknown_to_package : choice -> string -> Prop :=
| un_reason s : own_value s -> s <> "x-schedule" -> unknown_to_package OptReason s
| un_dirham n : In n ["currency"; "currencyPerKWh"; "currencyPerThm"] -> unknown_to_package (Unit n) "AED"
| un_joule : unknown_to_package (Unit "powerReal") "J/s"
| un_per_kw u : unknown_to_package (Unit "currencyPerKW") u.

(** The name [k] has the value [v] after the assignments of [b]. *)
Definition ends_as (b : list (string * string)) (k v : string) : Prop := exists before after, b = (before ++ (k, v) :: after)%list /\ ~ In k (map fst after).
(** A name that a class may give to a member. *)
Definition member_name (k : string) : Prop := ~ In k ["members"; "mro"; "values"] /\ forall r, k <> "_" ++ r.
