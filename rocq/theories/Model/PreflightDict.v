(** Preflight checks on the dicts themselves: preflight.py:24-149 and
    utils.py:534-606.

    Model/Preflight.v has the same checks on records.  Here events and reports
    are arbitrary dicts, as create_message (messaging.py:65-88) gets them, so
    that what comes out is what the templates print (Model/Exchange.v).  The
    code changes the dicts in place; the model returns the changed payload.
    Instances of dataclasses have been converted with asdict (lines 33-39).
    Simplifications: no two parts of the payload are the same object; sums of
    durations do not overflow; texts of log messages are not made, but the
    members that they look up must be there. *)
From Coq Require Import ZArith String List Bool.
From Verif.Base Require Import Result Dict PyStr.
From Verif.Model Require Import DateTime Duration Measurements Normalize Preflight.
Import ListNotations.
Local Open Scope string_scope.
Local Open Scope Z_scope.

(** v[k] and k in v for a text k, for x in v, v[k] = x *)
Definition item (k : string) (v : val) : result val :=
  match v with VDict d => match vget k d with Some x => Ok x | None => Raise KeyError end | _ => Raise TypeError end.
Definition has (k : string) (v : val) : result bool :=
  match v with
  | VDict d => Ok (vmem k d)
  | VStr s => Ok (contains k s)
  | VList l => Ok (existsb (fun x => match x with VStr s => String.eqb k s | _ => false end) l)
  | _ => Raise TypeError
  end.
Definition elements (v : val) : result (list val) :=
  match v with
  | VList l => Ok l
  | VDict d => Ok (map (fun kv => VStr (fst kv)) d)
  | VStr s => Ok (map (fun c => VStr (String c "")) (list_ascii_of_string s))
  | _ => Raise TypeError
  end.
Definition put (k : string) (x v : val) : val := match v with VDict d => VDict (vset k x d) | v => v end.
(** The loop [for x in v[k]: f], where [f] changes x. *)
Definition each (k : string) (f : val -> result val) (v : val) : result val :=
  bind (item k v) (fun l => bind (elements l) (fun xs => bind (mapM f xs) (fun ys =>
  Ok (match l with VList _ => put k (VList ys) v | _ => v end)))).

Definition the_text (s : string) (v : val) : bool := match v with VStr t => String.eqb s t | _ => false end.
(** v == n for a small number n: Python prints such a float thus. *)
Definition is_number (n : Z) (v : val) : bool :=
  match v with
  | VInt z => z =? n
  | VBool b => (if b then 1 else 0) =? n
  | VFloat t => match n with
                | 0 => String.eqb t "0.0" || String.eqb t "-0.0" | 1 => String.eqb t "1.0" | 2 => String.eqb t "2.0" | 3 => String.eqb t "3.0"
                | _ => false
                end
  | _ => false
  end.

(** ** oadrDistributeEvent *)

(** preflight.py:71-89, rule 8 *)
Definition duration_arg (v : val) : dur_arg := match v with VDur z => DTd z | VStr s => DText s | _ => DOther end.
Definition signal_total (signal : val) : result Z :=
  bind (item "intervals" signal) (fun l => bind (elements l) (fun is_ =>
  bind (mapM (fun i => bind (item "duration" i) (fun d => parse_duration (duration_arg d))) is_) (fun ds => Ok (fold_left Z.add ds 0)))).
Definition lasts (d : Z) (v : val) : bool := match v with VDur z => d =? z | _ => false end.
Definition event_duration (event : val) : result val :=
  bind (item "active_period" event) (fun period =>
  bind (item "duration" period) (fun duration =>
  bind (item "event_signals" event) (fun l => bind (elements l) (fun signals =>
  bind (mapM signal_total signals) (fun ds =>
  if forallb (fun d => lasts d duration) ds then Ok event
  else match ds with
       | [] => Ok event
       | d0 :: _ =>
         if forallb (fun d => d =? d0) ds then
           bind (item "event_descriptor" event) (fun descriptor => bind (item "event_id" descriptor) (fun _ =>
           Ok (put "active_period" (put "duration" (VDur d0) period) event)))
         else Raise ValueError
       end))))).

(** preflight.py:91-98, rule 9 *)
Definition simple_payload (interval : val) : result val :=
  bind (item "signal_payload" interval) (fun p => if existsb (fun n => is_number n p) [0; 1; 2; 3] then Ok interval else Raise ValueError).
Definition simple_signal (signal : val) : result val :=
  bind (item "signal_name" signal) (fun name => if the_text "SIMPLE" name then each "intervals" simple_payload signal else Ok signal).

(** preflight.py:100-109, rule 14 *)
Definition current_value (event signal : val) : result val :=
  bind (has "current_value" signal) (fun h =>
  if h then
    bind (item "current_value" signal) (fun c =>
    if is_number 0 c then Ok signal
    else bind (item "signal_name" signal) (fun name =>
         if the_text "SIMPLE" name then
           bind (item "event_descriptor" event) (fun descriptor => bind (item "event_status" descriptor) (fun status =>
           Ok (if the_text "ACTIVE" status then signal else put "current_value" (VInt 0) signal)))
         else Ok signal))
  else Ok signal).

(** preflight.py:57-65 and 111-120.  A name that is not a text is not known, or
    not even hashable. *)
Definition add_ns (measurement : val) : result val :=
  bind (item "name" measurement) (fun name =>
  match name with
  | VStr n => match get String.eqb n Measurements.measurement_namespaces with Some ns => Ok (put "ns" (VStr ns) measurement) | None => Raise ValueError end
  | VList _ | VDict _ => Raise TypeError
  | _ => Raise ValueError
  end).
(** if 'measurement' in v and v['measurement'] is not None: f *)
Definition measured (f : val -> result val) (v : val) : result val :=
  bind (has "measurement" v) (fun h =>
  if h then bind (item "measurement" v) (fun m => match m with VNone => Ok v | _ => bind (f m) (fun m' => Ok (put "measurement" m' v)) end)
  else Ok v).

(** preflight.py:122-130 *)
Definition response_required (event : val) : result val :=
  bind (has "response_required" event) (fun h =>
  if h then bind (item "response_required" event) (fun r => Ok (if the_text "never" r || the_text "always" r then event else put "response_required" (VStr "always") event))
  else Ok (put "response_required" (VStr "always") event)).

(** preflight.py:132-138.  A text or list without the key cannot be assigned to. *)
Definition created_date_time (now : datetime) (event : val) : result val :=
  bind (item "event_descriptor" event) (fun descriptor =>
  bind (has "created_date_time" descriptor) (fun h =>
  bind (if h then bind (item "created_date_time" descriptor) (fun c => Ok (vtruthy c)) else Ok false) (fun set_ =>
  if set_ then Ok event
  else match descriptor with
       | VDict d => Ok (put "event_descriptor" (VDict (vset "created_date_time" (VTime now) d)) event)
       | _ => Raise TypeError
       end))).

(** utils.py:534-543 *)
Definition group_target (g : vdict) (kv : string * val) : vdict :=
  match snd kv with
  | VNone => g
  | v => match vget (fst kv) g with Some (VList l) => vset (fst kv) (VList (l ++ [v])) g | _ => vset (fst kv) (VList [v]) g end
  end.
Definition group_targets (targets : val) : result vdict :=
  bind (elements targets) (fun ts => foldM (fun g t => match t with VDict d => Ok (fold_left group_target d g) | _ => Raise AttributeError end) ts []).
(** utils.py:546-554 *)
Definition ungroup_targets (by_type : val) : result val :=
  match by_type with
  | VDict d => Ok (VList (flat_map (fun kv => match snd kv with
                                              | VList l => map (fun t => VDict [(fst kv, t)]) l
                                              | VStr s => [VDict [(fst kv, VStr s)]]
                                              | _ => [] end) d))
  | _ => Raise AttributeError
  end.
(** Equality of a dict of lists with something; the lists are compared
    element by element, texts with texts.  Other elements of target lists are
    taken to be different. *)
Fixpoint same_texts (l m : list val) : bool :=
  match l, m with [], [] => true | VStr s :: l, VStr t :: m => String.eqb s t && same_texts l m | _, _ => false end.
Definition same_groups (g : vdict) (v : val) : bool :=
  match v with
  | VDict d => (length g =? length d)%nat && forallb (fun kv => match snd kv, vget (fst kv) d with VList l, Some (VList m) => same_texts l m | _, _ => false end) g
  | _ => false
  end.
(** preflight.py:140-149 *)
Definition targets (event : val) : result val :=
  bind (has "targets" event) (fun h => bind (has "targets_by_type" event) (fun h' =>
  match h, h' with
  | true, true =>
    bind (item "targets" event) (fun ts => bind (group_targets ts) (fun g => bind (item "targets_by_type" event) (fun b =>
    if same_groups g b then Ok event else Raise ValueError)))
  | false, true => bind (item "targets_by_type" event) (fun b => bind (ungroup_targets b) (fun ts => Ok (put "targets" ts event)))
  | _, false => Ok event
  end)).

(** for i, x in enumerate(v[k]) *)
Fixpoint mapMi {A B} (f : nat -> A -> result B) (i : nat) (l : list A) : result (list B) :=
  match l with [] => Ok [] | x :: r => bind (f i x) (fun y => bind (mapMi f (S i) r) (fun ys => Ok (y :: ys))) end.
(** preflight.py:68-149.  [now] are the readings of the clock. *)
Definition distribute_checks : list (val -> result val) :=
  [event_duration; each "event_signals" simple_signal; (fun event => each "event_signals" (current_value event) event);
   each "event_signals" (measured add_ns); response_required].
Definition preflight_events (now : nat -> datetime) (events : list val) : result (list val) :=
  bind (foldM (fun es check => mapM check es) distribute_checks events) (fun es =>
  bind (mapMi (fun i => created_date_time (now i)) 0 es) (fun es =>
  mapM targets es)).

(** ** oadrRegisterReport *)

(** utils.py:557-606 *)
Definition power_given (measurement : val) : result val :=
  bind (has "power_attributes" measurement) (fun h =>
  if h then bind (item "power_attributes" measurement) (fun a =>
            bind (has "voltage" a) (fun v => if v then bind (has "ac" a) (fun c => if c then bind (has "hertz" a) (fun z => if z then Ok measurement else Raise ValueError)
                                                                                   else Raise ValueError)
                                             else Raise ValueError))
  else Raise ValueError).
Definition validate_measurement (measurement : val) : result val :=
  bind (has "name" measurement) (fun hn => if negb hn then Raise ValueError else
  bind (has "description" measurement) (fun hd => if negb hd then Raise ValueError else
  bind (has "unit" measurement) (fun hu => if negb hu then Raise ValueError else
  bind (item "name" measurement) (fun name =>
  bind (item "description" measurement) (fun description =>
  bind (item "unit" measurement) (fun unit =>
  match name with
  | VStr n =>
    bind (match get String.eqb n measurement_descriptions with
          | Some required =>
            bind (match description with
                  | VStr d => if String.eqb d required then Ok measurement
                              else if String.eqb (lower d) (lower required) then Ok (put "description" (VStr required) measurement)
                              else Raise ValueError
                  | _ => Raise AttributeError
                  end) (fun m =>
            match get String.eqb n acceptable_units with
            | Some units => if existsb (fun u => the_text u unit) units then Ok m else Raise ValueError
            | None => Raise KeyError
            end)
          | None => Ok (if String.eqb n "customUnit" then measurement else put "name" (VStr "customUnit") measurement)
          end) (fun m => if contains "power" n then power_given m else Ok m)
  | _ => Raise TypeError
  end)))))).
(** preflight.py:45-65 *)
Definition report_name (report : val) : result val :=
  bind (item "report_name" report) (fun name =>
  match name with
  | VStr n => Ok (if inb n REPORT_NAME_values && negb (startswith "METADATA" n) then put "report_name" (VStr ("METADATA_" ++ n)) report else report)
  | _ => Ok report
  end).
Definition preflight_report (report : val) : result val :=
  bind (report_name report) (fun report =>
  bind (each "report_descriptions" (measured validate_measurement) report) (fun report =>
  each "report_descriptions" (measured add_ns) report)).

(** preflight.py:24-41 *)
Definition preflight_message (now : nat -> datetime) (t : string) (p : vdict) : result vdict :=
  if String.eqb t "oadrDistributeEvent" then
    bind (item "events" (VDict p)) (fun l => bind (elements l) (fun events => bind (preflight_events now events) (fun es =>
    Ok (match l with VList _ => vset "events" (VList es) p | _ => p end))))
  else if String.eqb t "oadrRegisterReport" then
    bind (item "reports" (VDict p)) (fun l => bind (elements l) (fun reports => bind (mapM preflight_report reports) (fun rs =>
    Ok (match l with VList _ => vset "reports" (VList rs) p | _ => p end))))
  else Ok p.
