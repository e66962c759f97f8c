(** Reading messages: utils.py:53-266 (normalize_dict), with
    utils.py:534-543 (group_targets_by_type).

    Values are what xmltodict and the conversions produce.  A float is
    written as the text whose float() it is; what float() and int() make of
    such texts is an oracle.  Simplifications: normalize_dict is called with
    dicts (not with dataclasses, lines 60-61); int() of a text that does not
    match line 101 is a ValueError (Python also accepts "+5" and "1_0"); the
    texts of other values in line 146 are an oracle. *)
From Coq Require Import ZArith String Ascii List Bool.
From Verif.Base Require Import Result Dict PyStr.
From Verif.Model Require Import Duration DateTime.
Import ListNotations.
Local Open Scope string_scope.
Local Open Scope Z_scope.

Inductive val :=
| VNone
| VBool (b : bool)
| VInt (z : Z)
| VFloat (text : string)           (* float(text) *)
| VStr (s : string)
| VTime (t : datetime)
| VDur (td : Z)
| VList (l : list val)
| VDict (d : list (string * val)).
Definition vdict := dict string val.
Definition vget (k : string) (d : vdict) : option val := get String.eqb k d.
Definition vset (k : string) (v : val) (d : vdict) : vdict := set String.eqb k v d.
Definition vdel (k : string) (d : vdict) : vdict := del String.eqb k d.
Definition vmem (k : string) (d : vdict) : bool := mem String.eqb k d.

Record numbers := mk_numbers {
  float_ok : string -> bool;          (* float(text) succeeds *)
  float_to_int : string -> result Z;  (* int(float(text)) *)
  other_str : val -> string }.        (* str(v) for values other than texts and integers *)

(** enums.py:257-273 *)
Definition measurement_namespaces : list string :=
  ["currency"; "currencyPerWK"; "currencyPerKWh"; "currencyPerThm"; "current"; "energyApparent"; "energyReactive"; "energyReal"; "frequency";
   "powerApparent"; "powerReactive"; "powerReal"; "pulseCount"; "temperature"; "Therm"; "voltage"; "customUnit"].

(** utils.py:63-74 normalize_key.  The substitution of line 71 puts an
    underscore between a lower-case and an upper-case letter. *)
Fixpoint camel_to_snake (s : string) : string :=
  match s with
  | String c ((String c' _) as r) => if is_lower c && is_upper c' then String c (String "_" (camel_to_snake r)) else String c (camel_to_snake r)
  | s => s
  end.
Fixpoint dash_to_underscore (s : string) : string :=
  match s with EmptyString => EmptyString | String c r => String (if Ascii.eqb c "-" then "_"%char else c) (dash_to_underscore r) end.
Definition normalize_key (key : string) : string :=
  let key := match strip_prefix "oadr" key with
             | Some r => r
             | None => match strip_prefix "ei" key with Some r => r | None => key end
             end in
  if existsb (String.eqb key) measurement_namespaces then key
  else lower (dash_to_underscore (camel_to_snake key)).

(** The patterns of lines 101 and 103. *)
Definition unsigned (s : string) : string := match s with String c r => if Ascii.eqb c "-" then r else s | EmptyString => s end.
Definition looks_int (s : string) : bool := match unsigned s with EmptyString => false | r => all_digits r end.
Fixpoint digits_and_dots (s : string) : bool :=
  match s with EmptyString => true | String c r => (is_digit c || Ascii.eqb c ".") && digits_and_dots r end.
Definition looks_float (s : string) : bool := match unsigned s with EmptyString => false | r => digits_and_dots r end.
Definition int_text (s : string) : Z := match s with String c r => if Ascii.eqb c "-" then - int_of r else int_of s | EmptyString => 0 end.

(** key[:-1] *)
Fixpoint butlast (s : string) : string :=
  match s with EmptyString => EmptyString | String c EmptyString => EmptyString | String c r => String c (butlast r) end.

(** bool(v) *)
Definition vtruthy (v : val) : bool :=
  match v with VNone | VBool false | VInt 0 | VStr EmptyString | VList [] | VDict [] | VDur 0 => false | _ => true end.

Section Normalize.
Context (num : numbers).

(** float(v), int(v) *)
Definition to_float (v : val) : result val :=
  match v with
  | VFloat t => Ok (VFloat t)
  | VInt z => Ok (VFloat (str_of_Z z))
  | VBool b => Ok (VFloat (if b then "1" else "0"))
  | VStr s => if float_ok num s then Ok (VFloat s) else Raise ValueError
  | _ => Raise TypeError
  end.
Definition to_int (v : val) : result val :=
  match v with
  | VInt z => Ok (VInt z)
  | VBool b => Ok (VInt (if b then 1 else 0))
  | VFloat t => bind (float_to_int num t) (fun z => Ok (VInt z))
  | VStr s => if looks_int s then Ok (VInt (int_text s)) else Raise ValueError
  | _ => Raise TypeError
  end.

(** Lines 94-108: a value that is neither a dict nor a list. *)
Definition interpret (key : string) (v : val) : result val :=
  if existsb (String.eqb key) ["duration"; "startafter"; "max_period"; "min_period"] then
    bind (parse_duration (match v with VDur td => DTd td | VStr s => DText s | _ => DOther end)) (fun td => Ok (VDur td))
  else match v with
  | VStr s =>
    if contains "date_time" key || String.eqb key "dtstart" then
      bind (parse_datetime s) (fun r => Ok (match r with Parsed t => VTime t | Unparsed s => VStr s end))
    else if String.eqb s "true" || String.eqb s "false" then Ok (VBool (String.eqb s "true"))
    else if looks_int s then Ok (VInt (int_text s))
    else if looks_float s then (if float_ok num s then Ok (VFloat s) else Raise ValueError)
    else Ok v
  | _ => Ok v
  end.

(** Lines 116-130: the targets. *)
Definition new_targets (targets : val) : result (list (string * val)) :=
  if negb (vtruthy targets) then Ok []
  else match targets with
  | VDict d => Ok (flat_map (fun kv => match snd kv with VList l => map (fun v => (fst kv, v)) l | v => [(fst kv, v)] end) d)
  | _ => Raise TypeError
  end.
(** utils.py:534-543 group_targets_by_type for targets with one member each *)
Definition grouped (l : list (string * val)) : vdict :=
  fold_left (fun d kv => match snd kv with
                         | VNone => d
                         | v => vset (fst kv) (VList ((match vget (fst kv) d with Some (VList l) => l | _ => [] end) ++ [v])%list) d
                         end) l [].

(** Lines 185-200: the measurement of one description.  [None]: no measurement
    was found, and the loop over the descriptions ends. *)
Definition measured (description : val) : result (option val) :=
  match description with
  | VDict d =>
    match find (fun m => vmem m d) measurement_namespaces with
    | None => Ok None
    | Some name =>
      match vget name d with
      | Some (VDict item) =>
        let pop_none k i := (match vget k i with Some v => v | None => VNone end, vdel k i) in
        let (desc, item) := pop_none "item_description" item in
        let item := vset "description" desc item in
        let (unit, item) := pop_none "item_units" item in
        let item := vset "unit" unit item in
        let item := match vget "si_scale_code" item with Some v => vset "scale" v (vdel "si_scale_code" item) | None => item end in
        let item := match vget "pulse_factor" item with Some v => vset "pulse_factor" v (vdel "pulse_factor" item) | None => item end in
        Ok (Some (VDict (vset "measurement" (VDict (fold_left (fun m kv => vset (fst kv) (snd kv) m) item [("name", VStr name)])) (vdel name d))))
      | Some (VList _) => Raise TypeError
      | _ => Raise AttributeError
      end
    end
  | VStr s => if existsb (fun m => contains m s) measurement_namespaces then Raise AttributeError else Ok None
  | VList l => if existsb (fun m => existsb (fun v => match v with VStr s => String.eqb m s | _ => false end) l) measurement_namespaces then Raise TypeError else Ok None
  | _ => Raise TypeError
  end.
Fixpoint measured_all (descriptions : list val) : result (list val) :=
  match descriptions with
  | [] => Ok []
  | x :: r => bind (measured x) (fun m =>
              match m with
              | None => Ok (x :: r)
              | Some x' => bind (measured_all r) (fun r' => Ok (x' :: r'))
              end)
  end.

(** 'value' in v, for the dict, text or list v; TypeError for others *)
Definition contains_value (v : val) : result bool :=
  match v with
  | VDict d => Ok (vmem "value" d)
  | VStr s => Ok (contains "value" s)
  | VList l => Ok (existsb (fun x => match x with VStr s => String.eqb s "value" | _ => false end) l)
  | _ => Raise TypeError
  end.
(** v['value'], after [contains_value] *)
Definition the_value (v : val) : result val :=
  match v with VDict d => match vget "value" d with Some x => Ok x | None => Raise KeyError end | _ => Raise TypeError end.

Definition as_event (e : val) : result val :=
  match e with
  | VDict d =>
    match vget "event" d, vget "response_required" d with
    | Some (VDict ev), Some r => Ok (VDict (vset "response_required" r ev))
    | Some _, Some _ => Raise TypeError
    | _, _ => Raise KeyError
    end
  | _ => Raise TypeError
  end.

(** Lines 225-233 *)
Definition payload_value (v : val) : result val :=
  match v with
  | VDict p =>
    let try_int :=
      match vget "payload_int" p with
      | None => Ok v
      | Some pi => bind (contains_value pi) (fun b => if b then bind (the_value pi) to_int else Ok v)
      end in
    match vget "payload_float" p with
    | None => try_int
    | Some pf => bind (contains_value pf) (fun b => if b then bind (the_value pf) (fun x => match x with VNone => try_int | _ => to_float x end) else try_int)
    end
  | _ => Ok v
  end.
(** Lines 236-242.  Line 241 pops payload_float where there is none. *)
Definition report_value (v : val) : result val :=
  match v with
  | VDict p =>
    let try_int :=
      match vget "payload_int" p with
      | None => Ok v
      | Some pi => bind (contains_value pi) (fun b => if b then
          match vget "payload_float" p with
          | None => Raise KeyError
          | Some pf => bind (the_value pf) (fun x => bind (to_int x) (fun x => Ok (VDict (vset "value" x (vdel "payload_float" p)))))
          end else Ok v)
      end in
    match vget "payload_float" p with
    | None => try_int
    | Some pf => bind (contains_value pf) (fun b => if b then bind (the_value pf) (fun x => bind (to_float x) (fun x => Ok (VDict (vset "value" x (vdel "payload_float" p))))) else try_int)
    end
  | VStr s => if contains "payload_float" s || contains "payload_int" s then Raise TypeError else Ok v
  | VList _ => Ok v
  | _ => Raise TypeError
  end.

(** Lines 210-266 for a dict: the value that replaces it ([None]: removed). *)
Definition unnest (key : string) (v : val) : result (option val) :=
  match v with
  | VDict p =>
    let one := Nat.eqb (length p) 1 in
    if vmem "duration" p && one then Ok (vget "duration" p)
    else if vmem key p && one then Ok (vget key p)
    else if vmem (butlast key) p && one then Ok (match vget (butlast key) p with Some (VList l) => Some (VList l) | Some x => Some (VList [x]) | None => None end)
    else if existsb (String.eqb key) ["signal_payload"; "current_value"] then bind (payload_value v) (fun x => Ok (Some x))
    else if String.eqb key "report_payload" then bind (report_value v) (fun x => Ok (Some x))
    else if String.eqb key "test_event" then Ok (Some (VBool true))
    else if vmem "text" p && one then
      match vget "text" p with
      | Some x => if String.eqb key "uid" then bind (to_int x) (fun x => Ok (Some x)) else Ok (Some x)
      | None => Ok None
      end
    else if vmem "date_time" p && one then Ok (vget "date_time" p)
    else if vmem "properties" p && Nat.leb (length p) 2 then Ok (vget "properties" p)
    else if Nat.eqb (length p) 0 then Ok None
    else Ok (Some v)
  | _ =>
    if existsb (String.eqb key) ["signal_payload"; "current_value"] then Ok (Some v)
    else if String.eqb key "report_payload" then bind (report_value v) (fun x => Ok (Some x))
    else if String.eqb key "test_event" then Ok (Some (match v with VBool b => VBool b | _ => VBool true end))
    else Ok (Some v)
  end.

(** Lines 133-266: what becomes of [key], now bound in [d] to [v]. *)
Definition tidy (key : string) (v : val) (d : vdict) : result vdict :=
  if String.eqb key "pending_reports" then
    match v with
    | VDict p =>
      match vget "report_request_id" p with
      | None => Ok d
      | Some r =>
        let ids := match r with VList l => l | x => [x] end in
        let str x := match x with VStr s => s | VInt z => str_of_Z z | x => other_str num x end in
        Ok (vset key (VList (map (fun x => VDict [("report_request_id", VStr (str x))]) ids)) d)
      end
    | VNone => Ok (vset key (VList []) d)
    | _ => Ok d
    end
  else if String.eqb key "event" && match v with VList _ => true | _ => false end then
    match v with VList l => bind (mapM as_event l) (fun es => Ok (vset "events" (VList es) (vdel "event" d))) | _ => Ok d end
  else if String.eqb key "event" && match v with VDict p => vmem "event" p | _ => false end then
    bind (as_event v) (fun e => Ok (vset "events" (VList [e]) (vdel "event" d)))
  else if existsb (String.eqb key) ["request_event"; "created_event"] && match v with VDict _ => true | _ => false end then
    Ok (match v with VDict p => p | _ => d end)
  else if existsb (String.eqb key) ["report_request"; "report"; "specifier_payload"] then
    Ok (vset (key ++ "s") (match v with VList l => VList l | x => VList [x] end) (vdel key d))
  else if existsb (String.eqb key) ["report_description"; "event_signal"] then
    bind (measured_all (match v with VList l => l | x => [x] end)) (fun l => Ok (vset (key ++ "s") (VList l) (vdel key d)))
  else if String.eqb key "qualified_event_id" && match v with VDict _ => true | _ => false end then
    match v with
    | VDict q => match vget "event_id" q, vget "modification_number" q with
                 | Some i, Some n => Ok (vset "modification_number" n (vset "event_id" i (vdel key d)))
                 | _, _ => Raise KeyError
                 end
    | _ => Ok d
    end
  else bind (unnest key v) (fun r => match r with Some x => Ok (vset key x d) | None => Ok (vdel key d) end).

(** One round of the loop, lines 77-266.  [rec] is normalize_dict. *)
Definition entry (rec : vdict -> result vdict) (d : vdict) (kv : string * val) : result vdict :=
  let (key, value) := kv in
  if startswith "@" key then Ok d
  else
    let key := normalize_key key in
    bind (match value with
          | VDict x => bind (rec x) (fun y => Ok (VDict y))
          | VList l => bind (mapM (fun item => match item with
                                               | VDict x => bind (rec x) (fun y => bind (rec y) (fun z => Ok (VDict z)))
                                               | x => Ok x
                                               end) l) (fun l => Ok (VList l))
          | x => interpret key x
          end) (fun v =>
    let key := match strip_prefix "x_ei_" key with Some r => r | None => key end in
    if String.eqb key "target" then
      bind (new_targets v) (fun ts =>
      Ok (vset "targets_by_type" (VDict (grouped ts)) (vset "targets" (VList (map (fun kv => VDict [kv]) ts)) (vdel "target" d))))
    else tidy key v (vset key v d)).

(** utils.py:53-266 normalize_dict; [depth] is the recursion depth that is
    left (RecursionError beyond). *)
Fixpoint normalize (depth : nat) (items : vdict) : result vdict :=
  match depth with
  | O => Raise RecursionError
  | S n => foldM (entry (normalize n)) items []
  end.
End Normalize.
