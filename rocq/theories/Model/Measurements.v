(** Measurements: enums.py:203-417, objects.py:140-161,
    utils.validate_report_measurement_dict (utils.py:557-606). *)
From Coq Require Import ZArith String List Bool.
From Verif.Base Require Import Result Dict PyStr.
Import ListNotations.
Local Open Scope string_scope.
Local Open Scope Z_scope.

(** enums.py:203-221 _CURRENCIES *)
Definition currencies : list string :=
  [
   "AFN"; "ALL"; "AMD"; "ANG"; "AOA"; "ARS"; "AUD"; "AWG"; "AZN"; "BAM"; "BBD"; "BDT"; "BGN"; "BHD"; "BIF"; "BMD";
   "BND"; "BOB"; "BOV"; "BRL"; "BSD"; "BTN"; "BWP"; "BYR"; "BZD"; "CAD"; "CDF"; "CHE"; "CHF"; "CHW"; "CLF"; "CLP";
   "CNY"; "COP"; "COU"; "CRC"; "CUC"; "CUP"; "CVE"; "CZK"; "DJF"; "DKK"; "DOP"; "DZD"; "EEK"; "EGP"; "ERN"; "ETB";
   "EUR"; "FJD"; "FKP"; "GBP"; "GEL"; "GHS"; "GIP"; "GMD"; "GNF"; "GTQ"; "GWP"; "GYD"; "HKD"; "HNL"; "HRK"; "HTG";
   "HUF"; "IDR"; "ILS"; "INR"; "IQD"; "IRR"; "ISK"; "JMD"; "JOD"; "JPY"; "KES"; "KGS"; "KHR"; "KMF"; "KPW"; "KRW";
   "KWD"; "KYD"; "KZT"; "LAK"; "LBP"; "LKR"; "LRD"; "LSL"; "LTL"; "LVL"; "LYD"; "MAD"; "MAD"; "MDL"; "MGA"; "MKD";
   "MMK"; "MNT"; "MOP"; "MRO"; "MUR"; "MVR"; "MWK"; "MXN"; "MXV"; "MYR"; "MZN"; "NAD"; "NGN"; "NIO"; "NOK"; "NPR";
   "NZD"; "OMR"; "PAB"; "PEN"; "PGK"; "PHP"; "PKR"; "PLN"; "PYG"; "QAR"; "RON"; "RSD"; "RUB"; "RWF"; "SAR"; "SBD";
   "SCR"; "SDG"; "SEK"; "SGD"; "SHP"; "SLL"; "SOS"; "SRD"; "STD"; "SVC"; "SYP"; "SZL"; "THB"; "TJS"; "TMT"; "TND";
   "TOP"; "TRY"; "TTD"; "TWD"; "TZS"; "UAH"; "UGX"; "USD"; "USN"; "USS"; "UYI"; "UYU"; "UZS"; "VEF"; "VND"; "VUV";
   "WST"; "XAF"; "XAG"; "XAU"; "XBA"; "XBB"; "XBC"; "XBD"; "XCD"; "XDR"; "XFU"; "XOF"; "XPD"; "XPF"; "XPF"; "XPF";
   "XPT"; "XTS"; "XXX"; "YER"; "ZAR"; "ZMK"; "ZWL"].

(** enums.py:223-238 _ACCEPTABLE_UNITS *)
Definition acceptable_units : dict string (list string) :=
  [
   ("currency", currencies); ("currencyPerKW", currencies); ("currencyPerKWh", currencies);
   ("currencyPerThm", currencies); ("current", ["A"]); ("energyApparent", ["VAh"]); ("energyReactive", ["VARh"]);
   ("energyReal", ["Wh"]); ("frequency", ["Hz"]); ("powerApparent", ["VA"]); ("powerReactive", ["VAR"]);
   ("powerReal", ["W"]); ("pulseCount", ["count"]); ("temperature", ["celsius"; "fahrenheit"]); ("Therm", ["thm"]);
   ("voltage", ["V"])].

(** enums.py:240-255 _MEASUREMENT_DESCRIPTIONS *)
Definition measurement_descriptions : dict string string :=
  [
   ("currency", "currency"); ("currencyPerKW", "currencyPerKW"); ("currencyPerKWh", "currencyPerKWh");
   ("currencyPerThm", "currency"); ("current", "Current"); ("energyApparent", "ApparentEnergy");
   ("energyReactive", "ReactiveEnergy"); ("energyReal", "RealEnergy"); ("frequency", "Frequency");
   ("powerApparent", "ApparentPower"); ("powerReactive", "ReactivePower"); ("powerReal", "RealPower");
   ("pulseCount", "pulse count"); ("temperature", "temperature"); ("Therm", "Therm"); ("voltage", "Voltage")].

(** enums.py:257-273 _MEASUREMENT_NAMESPACES *)
Definition measurement_namespaces : dict string string :=
  [
   ("currency", "oadr"); ("currencyPerWK", "oadr"); ("currencyPerKWh", "oadr"); ("currencyPerThm", "oadr");
   ("current", "oadr"); ("energyApparent", "power"); ("energyReactive", "power"); ("energyReal", "power");
   ("frequency", "oadr"); ("powerApparent", "power"); ("powerReactive", "power"); ("powerReal", "power");
   ("pulseCount", "oadr"); ("temperature", "oadr"); ("Therm", "oadr"); ("voltage", "power"); ("customUnit", "oadr")].

(** The power_attributes of a measurement: no such key, None, or a dict. *)
Inductive power_arg := NoPower | PowerNone | PowerDict (d : dict string scalar).

(** A measurement dict.  A missing key is None.  Only the keys that the code
    looks at, and the namespace it adds, are modelled. *)
Record mdict := mk_md {
  md_name : option string;
  md_description : option string;
  md_unit : option string;
  md_scale : option string;
  md_power : power_arg;
  md_pulse : option Z;
  md_ns : option string }.
Definition set_md_name n m := mk_md n (md_description m) (md_unit m) (md_scale m) (md_power m) (md_pulse m) (md_ns m).
Definition set_md_description x m := mk_md (md_name m) x (md_unit m) (md_scale m) (md_power m) (md_pulse m) (md_ns m).
Definition set_md_ns x m := mk_md (md_name m) (md_description m) (md_unit m) (md_scale m) (md_power m) (md_pulse m) x.

Definition inb (x : string) (l : list string) : bool := existsb (String.eqb x) l.

(** utils.py:595-606 *)
Definition check_power (name : string) (m : mdict) : result unit :=
  if contains "power" name then
    match md_power m with
    | PowerDict d =>
      if negb (mem String.eqb "voltage" d) || negb (mem String.eqb "ac" d) || negb (mem String.eqb "hertz" d)
      then Raise ValueError else Ok tt
    | PowerNone => Raise TypeError      (* 'voltage' not in None *)
    | NoPower => Raise ValueError
    end
  else Ok tt.

(** utils.py:557-606; the dict is changed in place, so the changed dict is
    returned.  Names, descriptions and units are strings; lower-casing is
    that of ASCII. *)
Definition validate_report_measurement_dict (m : mdict) : result mdict :=
  match md_name m, md_description m, md_unit m with
  | Some name, Some description, Some unit =>
    bind
      (match get String.eqb name measurement_descriptions with
       | Some required =>
         bind (if String.eqb description required then Ok m
               else if String.eqb (lower description) (lower required) then Ok (set_md_description (Some required) m)
               else Raise ValueError) (fun m =>
         match get String.eqb name acceptable_units with
         | Some units => if inb unit units then Ok m else Raise ValueError
         | None => Raise KeyError
         end)
       | None => Ok (if String.eqb name "customUnit" then m else set_md_name (Some "customUnit") m)
       end) (fun m =>
    bind (check_power name m) (fun _ => Ok m))
  | _, _, _ => Raise ValueError
  end.

(** preflight.py:57-65 and 111-120: the namespace of a measurement. *)
Definition add_namespace (m : mdict) : result mdict :=
  match md_name m with
  | None => Raise KeyError
  | Some name =>
    match get String.eqb name measurement_namespaces with
    | Some ns => Ok (set_md_ns (Some ns) m)
    | None => Raise ValueError
    end
  end.

(** objects.py:147-161 Measurement(...) followed by asdict (preflight.py:33-41);
    [power] as hertz, voltage, ac. *)
Definition Measurement (name description unit : string) (scale : option string) (power : option (Z * Z * bool)) (pulse : option Z) : mdict :=
  let name := if mem String.eqb name measurement_namespaces then name else "customUnit" in
  mk_md (Some name) (Some description) (Some unit) scale
    (match power with
     | None => PowerNone
     | Some (hertz, voltage, ac) => PowerDict [("hertz", SInt hertz); ("voltage", SInt voltage); ("ac", SBool ac)]
     end)
    pulse (get String.eqb name measurement_namespaces).

(** enums.py:276-417 MEASUREMENTS: the member, its measurement name, and
    whether power attributes, scale 'none' and pulse factor 1000 are given. *)
Definition measurements : list (string * string * bool * bool * bool) :=
  [
   ("VOLTAGE", "voltage", false, true, false); ("CURRENT", "current", false, true, false);
   ("ENERGY_REAL", "energyReal", false, true, false); ("REAL_ENERGY", "energyReal", false, true, false);
   ("ACTIVE_ENERGY", "energyReal", false, true, false); ("ENERGY_REACTIVE", "energyReactive", false, true, false);
   ("REACTIVE_ENERGY", "energyReactive", false, true, false);
   ("ENERGY_APPARENT", "energyApparent", false, true, false);
   ("APPARENT_ENERGY", "energyApparent", false, true, false); ("ACTIVE_POWER", "powerReal", true, true, false);
   ("REAL_POWER", "powerReal", true, true, false); ("POWER_REAL", "powerReal", true, true, false);
   ("REACTIVE_POWER", "powerReactive", true, true, false); ("POWER_REACTIVE", "powerReactive", true, true, false);
   ("APPARENT_POWER", "powerApparent", true, true, false); ("POWER_APPARENT", "powerApparent", true, true, false);
   ("FREQUENCY", "frequency", false, true, false); ("PULSE_COUNT", "pulseCount", false, false, true);
   ("TEMPERATURE", "temperature", false, true, false); ("THERM", "Therm", false, true, false);
   ("CURRENCY", "currency", false, true, false); ("CURRENCY_PER_KW", "currencyPerKW", false, true, false);
   ("CURRENCY_PER_KWH", "currencyPerKWh", false, true, false);
   ("CURRENCY_PER_THM", "currencyPerThm", false, true, false)].

Definition member (m : string * string * bool * bool * bool) : mdict :=
  let '(_, name, power, scale, pulse) := m in
  Measurement name
    (match get String.eqb name measurement_descriptions with Some d => d | None => "" end)
    (match get String.eqb name acceptable_units with Some (u :: _) => u | _ => "" end)
    (if scale then Some "none" else None) (if power then Some (50, 230, true) else None) (if pulse then Some 1000 else None).
