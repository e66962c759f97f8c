(** Vocabulary for C38-C43: the OpenADR rules for distributed events. *)
From Coq Require Import ZArith String List Bool.
From Verif.Base Require Import Result PyStr.
From Verif.Model Require Import Objects Members Duration Measurements Preflight.
From Verif.Spec Require Import PathSpec.
Import ListNotations.
Local Open Scope string_scope.
Local Open Scope Z_scope.

(** The number [v] is [n]. *)
Definition equals (v : scalar) (n : Z) : Prop :=
  match v with
  | SInt z => z = n
  | SBool b => n = (if b then 1 else 0)
  | SDec m d => m = n * 10 ^ Z.of_nat d
  | SStr _ | SNone => False
  end.

(** Together the intervals last [t] (their durations are what C10 and C11 say
    about parse_duration). *)
Inductive lasts : list interval_d -> Z -> Prop :=
| lasts_nil : lasts [] 0
| lasts_cons i l d t : parse_duration (pi_duration i) = Ok d -> lasts l t -> lasts (i :: l) (d + t).

Definition simple (s : signal_d) : Prop := ps_name s = "SIMPLE".
Definition level (v : scalar) : Prop := equals v 0 \/ equals v 1 \/ equals v 2 \/ equals v 3.

(** The values of type [k] that a list of targets names, in order. *)
Definition target_values (k : string) (ts : list target) : list scalar :=
  map snd (filter (fun p => if string_dec k (fst p) then true else false) (target_pairs ts)).

(** The values that an entry of targets_by_type names. *)
Definition listed (v : tval) : list scalar :=
  match v with TList l => filter (fun x => if scalar_eq_dec x SNone then false else true) l | TStr s => [SStr s] | TOther => [] end.

(** The two describe the same targets. *)
Definition agree (ts : list target) (tbt : list (string * tval)) : Prop :=
  (forall k v, In (k, v) tbt -> target_values k ts = listed v) /\
  (forall k, ~ In k (map fst tbt) -> target_values k ts = []).

(** Each type comes with a non-empty list of values. *)
Definition canonical (tbt : list (string * tval)) : Prop :=
  forall k v, In (k, v) tbt -> exists l, v = TList l /\ l <> [] /\ ~ In SNone l.

(** [ts] is one target for each value in [tbt]. *)
Definition spread (tbt : list (string * tval)) (ts : list target) : Prop :=
  Forall (fun t => length t = 1%nat) ts /\
  concat ts = flat_map (fun '(k, v) => map (pair k) (match v with TList l => l | TStr s => [SStr s] | TOther => [] end)) tbt.

(** A measurement with a known name. *)
Definition known (m : mdict) (name ns : string) : Prop :=
  md_name m = Some name /\ In (name, ns) measurement_namespaces.

(** The rules that a distributed event must obey. *)
Record rules (e : event_d) : Prop := {
  r_durations : forall s, In s (pe_signals e) -> exists t, lasts (ps_intervals s) t /\ pe_duration e = DTd t;
  r_levels : forall s i, In s (pe_signals e) -> simple s -> In i (ps_intervals s) -> level (pi_payload i);
  r_current : forall s v, In s (pe_signals e) -> simple s -> ps_current s = Some v -> pe_status e <> "active" -> pe_status e <> "ACTIVE" -> equals v 0;
  r_response : pe_response e = Some "always" \/ pe_response e = Some "never";
  r_created : pe_created e <> None;
  r_targets : match pe_targets e, pe_tbt e with
              | Some ts, Some tbt => agree ts tbt
              | None, Some _ => False
              | _, None => True
              end }.

Definition named (e : event_d) : Prop :=
  forall s m, In s (pe_signals e) -> ps_measurement s = Some m -> exists name ns, known m name ns.
Definition namespaced (e : event_d) : Prop :=
  forall s m, In s (pe_signals e) -> ps_measurement s = Some m -> exists name ns, known m name ns /\ md_ns m = Some ns.

(** What can be sent, perhaps after corrections. *)
Record acceptable (e : event_d) : Prop := {
  a_durations : forall s, In s (pe_signals e) -> exists t, lasts (ps_intervals s) t;
  a_same : forall s s' t t', In s (pe_signals e) -> In s' (pe_signals e) ->
             lasts (ps_intervals s) t -> lasts (ps_intervals s') t' -> t = t';
  a_levels : forall s i, In s (pe_signals e) -> simple s -> In i (ps_intervals s) -> level (pi_payload i);
  a_named : named e;
  a_targets : forall ts tbt, pe_targets e = Some ts -> pe_tbt e = Some tbt -> agree ts tbt /\ canonical tbt }.

(** The corrections, member by member. *)
Record prepared_measurement (m m' : mdict) : Prop := {
  pm_name : md_name m' = md_name m;
  pm_description : md_description m' = md_description m;
  pm_unit : md_unit m' = md_unit m;
  pm_scale : md_scale m' = md_scale m;
  pm_power : md_power m' = md_power m;
  pm_pulse : md_pulse m' = md_pulse m;
  pm_ns : exists name ns, known m name ns /\ md_ns m' = Some ns }.

Record prepared_signal (status : string) (s s' : signal_d) : Prop := {
  q_intervals : ps_intervals s' = ps_intervals s;
  q_name : ps_name s' = ps_name s;
  q_type : ps_type s' = ps_type s;
  q_id : ps_id s' = ps_id s;
  q_targets : ps_targets s' = ps_targets s;
  q_current_kept : ~ simple s \/ status = "ACTIVE" \/ ps_current s = None \/ (exists v, ps_current s = Some v /\ equals v 0) ->
                   ps_current s' = ps_current s;
  q_current_zero : forall v, simple s -> status <> "ACTIVE" -> ps_current s = Some v -> ~ equals v 0 ->
                   ps_current s' = Some (SInt 0);
  q_measurement : match ps_measurement s, ps_measurement s' with
                  | None, None => True
                  | Some m, Some m' => prepared_measurement m m'
                  | _, _ => False
                  end }.

Record prepared (now : Z) (e e' : event_d) : Prop := {
  p_descriptor : pe_descriptor e' = pe_descriptor e;
  p_status : pe_status e' = pe_status e;
  p_start : pe_start e' = pe_start e;
  p_tbt : pe_tbt e' = pe_tbt e;
  p_duration_kept : pe_signals e = [] -> pe_duration e' = pe_duration e;
  p_duration : forall s t, In s (pe_signals e) -> lasts (ps_intervals s) t -> pe_duration e' = DTd t;
  p_signals : Forall2 (prepared_signal (pe_status e)) (pe_signals e) (pe_signals e');
  p_response_kept : pe_response e = Some "never" -> pe_response e' = Some "never";
  p_response : pe_response e <> Some "never" -> pe_response e' = Some "always";
  p_created_kept : forall t, pe_created e = Some t -> pe_created e' = Some t;
  p_created : pe_created e = None -> pe_created e' = Some now;
  p_targets_kept : forall ts, pe_targets e = Some ts -> pe_targets e' = Some ts;
  p_targets_none : pe_targets e = None -> pe_tbt e = None -> pe_targets e' = None;
  p_targets : forall tbt, pe_targets e = None -> pe_tbt e = Some tbt -> exists ts, pe_targets e' = Some ts /\ spread tbt ts }.

(** A Python dict has each key once. *)
Definition one_entry_each (e : event_d) : Prop := forall tbt, pe_tbt e = Some tbt -> NoDup (map fst tbt).

(** Durations are texts or timedeltas in range, measurements have a name. *)
Definition well_typed (e : event_d) : Prop :=
  forall s, In s (pe_signals e) ->
    (forall i, In i (ps_intervals s) -> (exists d, parse_duration (pi_duration i) = Ok d) \/ parse_duration (pi_duration i) = Raise ValueError) /\
    (forall m, ps_measurement s = Some m -> md_name m <> None).

(** Stronger than [r_current]: also for the status active. *)
Definition zero_unless_ACTIVE (e : event_d) : Prop :=
  forall s v, In s (pe_signals e) -> simple s -> ps_current s = Some v -> pe_status e <> "ACTIVE" -> equals v 0.

(** The event without the namespaces of its measurements. *)
Definition plain_signal (s : signal_d) : signal_d :=
  set_ps_measurement (match ps_measurement s with Some m => Some (set_md_ns None m) | None => None end) s.
Definition plain (e : event_d) : event_d := set_pe_signals (map plain_signal (pe_signals e)) e.
