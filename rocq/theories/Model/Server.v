(** OpenADRServer.add_event: server.py:183-269, with the constructors of
    EventDescriptor, EventSignal and Event (objects.py:93-112, 164-198,
    201-235) as far as add_event uses them. *)
From Coq Require Import ZArith String List Bool.
From Verif.Base Require Import Result Dict PyStr.
From Verif.Model Require Import Objects EventTime Members EventService.
Import ListNotations.
Local Open Scope string_scope.
Local Open Scope Z_scope.

(** enums.py:47-58 SIGNAL_TYPE.values and enums.py:61-72 SIGNAL_NAME.values *)
Definition SIGNAL_TYPE_values : list string :=
  ["delta"; "level"; "multiplier"; "price"; "priceMultiplier"; "priceRelative"; "setpoint"; "x-loadControlCapacity";
   "x-loadControlLevelOffset"; "x-loadControlPercentOffset"; "x-loadControlSetpoint"].
Definition SIGNAL_NAME_values : list string :=
  ["BID_ENERGY"; "BID_LOAD"; "BID_PRICE"; "CHARGE_STATE"; "DEMAND_CHARGE"; "ELECTRICITY_PRICE"; "ENERGY_PRICE"; "LOAD_CONTROL";
   "LOAD_DISPATCH"; "SIMPLE"; "simple"].

Definition inb (x : string) (l : list string) : bool := existsb (String.eqb x) l.

(** The argument targets: a list, or a single target. *)
Inductive targets_arg := ListOfTargets (l : list target) | OneTarget (t : target).
(** The argument intervals: a list or tuple, or anything else. *)
Inductive intervals_arg := ListOfIntervals (l : list interval) | NotAList.

Record add_args := mk_args {
  aa_name : string;
  aa_type : string;
  aa_intervals : intervals_arg;
  aa_event_id : option scalar;
  aa_targets : option targets_arg;
  aa_tbt : option (list (string * tval));
  aa_target : option target;
  aa_response : string;
  aa_context : string;
  aa_notification : option Z;
  aa_ramp_up : option Z;
  aa_recovery : option Z }.

(** server.py:221-229: the targets (lines 228-229 wrap a single one). *)
Definition choose_targets (v : scalar) (a : add_args) : list target :=
  match aa_target a with
  | Some t => [t]
  | None =>
    match aa_tbt a with
    | Some tbt => ungroup_targets_by_type tbt
    | None =>
      match aa_targets a with
      | Some (ListOfTargets l) => l
      | Some (OneTarget t) => [t]
      | None => [[("ven_id", v)]]
      end
    end
  end.

Section Clock.
Context (local : Z -> Z).

(** server.py:249-258: naive starts become aware, in place. *)
Definition make_aware (i : interval) : interval :=
  match iv_start i with
  | Aware _ => i
  | Naive w => mk_iv (Aware (local w)) (iv_duration i) (iv_payload i) (iv_uid i)
  end.

(** bool() of an event id *)
Definition truthy_id (id : scalar) : bool :=
  match id with
  | SNone => false | SBool b => b | SInt n => negb (n =? 0) | SStr s => negb (String.eqb s "") | SDec m _ => negb (m =? 0)
  end.

(** server.py:213-267 up to the call of add_raw_event: the event object.
    [gen n] are the ids generate_id() returns, [now n] the clock readings.
    The regular expression for market_context (line 213) matches every
    string. *)
Definition event_of_args (gen : nat -> string) (now : nat -> Z) (v : scalar) (a : add_args) : result event :=
  let event_id := match aa_event_id a with
                  | Some id => if truthy_id id then id else SStr (gen 0%nat)
                  | None => SStr (gen 0%nat)
                  end in
  if negb (inb (aa_response a) ["always"; "never"]) then Raise ValueError
  else
    let targets := choose_targets v a in
    if negb (inb (aa_type a) SIGNAL_TYPE_values) then Raise ValueError
    else if negb (inb (aa_name a) SIGNAL_NAME_values) && negb (startswith "x-" (aa_name a)) then Raise ValueError
    else
      match aa_intervals a with
      | NotAList | ListOfIntervals [] => Raise ValueError
      | ListOfIntervals intervals =>
        let descriptor := mk_ed event_id 0 (aa_context a) Far (now 0%nat) (now 1%nat) (Some 0) false None in
        let intervals := map make_aware intervals in
        let signal := mk_sg intervals (aa_name a) (aa_type a) (SStr (gen 1%nat)) None None None None in
        bind (get_active_period_from_intervals (map (fun i => (iv_start i, iv_duration i)) intervals)) (fun '(start, duration) =>
        let period := mk_ap start duration (aa_notification a) (aa_ramp_up a) (aa_recovery a) in
        let tbt := group_targets_by_type targets in
        let '(st, period) := determine_event_status local (now 2%nat) period in
        Ok (set_status st (mk_ev descriptor [signal] (Some targets) (Some tbt) period (aa_response a))))
      end.

(** add_event as a whole; [external] is polling_method == 'external'. *)
Definition add_event (external : bool) (gen : nat -> string) (now : nat -> Z) (v : scalar) (a : add_args)
    (cb : option callback) (sig_ok : bool) (dcb : option nat) (s : state) : state * list effect :=
  if external then (s, [])
  else match event_of_args gen now v a with
       | Raise x => (s, [ERaised x])
       | Ok e => add_raw_event v (New e) cb sig_ok dcb s
       end.
End Clock.
