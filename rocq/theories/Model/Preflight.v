(** Preflight checks of outgoing messages: preflight.py:24-149.

    The events and reports are the dicts that preflight_message (lines 33-41)
    passes on: dataclass instances have been converted with asdict.  The model
    returns the changed dicts; the code changes them in place. *)
From Coq Require Import ZArith String List Bool.
From Verif.Base Require Import Result Dict PyStr.
From Verif.Model Require Import Objects Members Duration Measurements.
Import ListNotations.
Local Open Scope string_scope.
Local Open Scope Z_scope.

(** ** oadrDistributeEvent *)
Record interval_d := mk_pi {
  pi_start : when;
  pi_duration : dur_arg;
  pi_payload : scalar;
  pi_uid : option scalar }.

(** [ps_current] is None when there is no such key; [ps_measurement] is None
    when there is no such key or its value is None. *)
Record signal_d := mk_ps {
  ps_intervals : list interval_d;
  ps_name : string;
  ps_type : string;
  ps_id : scalar;
  ps_current : option scalar;
  ps_measurement : option mdict;
  ps_targets : option (list target) }.

(** Missing keys are None.  The keys of the event descriptor that preflight
    does not look at are in [pe_descriptor]. *)
Record event_d := mk_pe {
  pe_descriptor : list (string * scalar);
  pe_status : string;
  pe_created : option Z;
  pe_start : when;
  pe_duration : dur_arg;
  pe_signals : list signal_d;
  pe_targets : option (list target);
  pe_tbt : option (dict string tval);
  pe_response : option string }.

Definition set_pe_duration d e := mk_pe (pe_descriptor e) (pe_status e) (pe_created e) (pe_start e) d (pe_signals e) (pe_targets e) (pe_tbt e) (pe_response e).
Definition set_pe_signals x e := mk_pe (pe_descriptor e) (pe_status e) (pe_created e) (pe_start e) (pe_duration e) x (pe_targets e) (pe_tbt e) (pe_response e).
Definition set_pe_response x e := mk_pe (pe_descriptor e) (pe_status e) (pe_created e) (pe_start e) (pe_duration e) (pe_signals e) (pe_targets e) (pe_tbt e) x.
Definition set_pe_created x e := mk_pe (pe_descriptor e) (pe_status e) x (pe_start e) (pe_duration e) (pe_signals e) (pe_targets e) (pe_tbt e) (pe_response e).
Definition set_pe_targets x e := mk_pe (pe_descriptor e) (pe_status e) (pe_created e) (pe_start e) (pe_duration e) (pe_signals e) x (pe_tbt e) (pe_response e).
Definition set_ps_current x s := mk_ps (ps_intervals s) (ps_name s) (ps_type s) (ps_id s) x (ps_measurement s) (ps_targets s).
Definition set_ps_measurement x s := mk_ps (ps_intervals s) (ps_name s) (ps_type s) (ps_id s) (ps_current s) x (ps_targets s).

(** preflight.py:71-89, rule 8.  Sums do not overflow. *)
Definition signal_duration (s : signal_d) : result Z :=
  bind (mapM (fun i => parse_duration (pi_duration i)) (ps_intervals s)) (fun ds => Ok (fold_left Z.add ds 0)).
Definition dur_is (d : Z) (a : dur_arg) : bool := match a with DTd z => d =? z | _ => false end.
Definition check_duration (e : event_d) : result event_d :=
  bind (mapM signal_duration (pe_signals e)) (fun ds =>
  if forallb (fun d => dur_is d (pe_duration e)) ds then Ok e
  else match ds with
       | [] => Ok e
       | d0 :: _ => if forallb (fun d => d =? d0) ds then Ok (set_pe_duration (DTd d0) e) else Raise ValueError
       end).

(** Python's equality of a value with an int. *)
Definition eq_int (v : scalar) (n : Z) : bool :=
  match v with
  | SInt z => z =? n
  | SBool b => (if b then 1 else 0) =? n
  | SDec mant digits => mant =? n * 10 ^ Z.of_nat digits
  | SStr _ | SNone => false
  end.

(** preflight.py:91-98, rule 9 *)
Definition check_simple (e : event_d) : result unit :=
  if forallb (fun s => negb (String.eqb (ps_name s) "SIMPLE") ||
                       forallb (fun i => existsb (eq_int (pi_payload i)) [0; 1; 2; 3]) (ps_intervals s)) (pe_signals e)
  then Ok tt else Raise ValueError.

(** preflight.py:100-109, rule 14 *)
Definition fix_current (status : string) (s : signal_d) : signal_d :=
  match ps_current s with
  | Some v =>
    if negb (eq_int v 0) && (String.eqb (ps_name s) "SIMPLE" && negb (String.eqb status "ACTIVE"))
    then set_ps_current (Some (SInt 0)) s else s
  | None => s
  end.

(** preflight.py:111-120 *)
Definition signal_namespace (s : signal_d) : result signal_d :=
  match ps_measurement s with
  | None => Ok s
  | Some m => bind (add_namespace m) (fun m => Ok (set_ps_measurement (Some m) s))
  end.

(** preflight.py:122-130 *)
Definition fix_response (e : event_d) : event_d :=
  match pe_response e with
  | None => set_pe_response (Some "always") e
  | Some r => if inb r ["never"; "always"] then e else set_pe_response (Some "always") e
  end.

(** preflight.py:132-138; [now] is the clock reading for this event. *)
Definition fix_created (now : Z) (e : event_d) : event_d :=
  match pe_created e with None => set_pe_created (Some now) e | Some _ => e end.

(** preflight.py:143 dict comparison *)
Definition tval_eqb (l : list scalar) (t : tval) : bool :=
  match t with TList m => if list_eq_dec scalar_eq_dec l m then true else false | _ => false end.
Definition tbt_eqb (g : dict string (list scalar)) (tbt : dict string tval) : bool :=
  (length g =? length tbt)%nat &&
  forallb (fun '(k, l) => match get String.eqb k tbt with Some t => tval_eqb l t | None => false end) g.

(** preflight.py:140-149 *)
Definition check_targets (e : event_d) : result event_d :=
  match pe_targets e, pe_tbt e with
  | Some ts, Some tbt => if tbt_eqb (group_targets_by_type ts) tbt then Ok e else Raise ValueError
  | None, Some tbt => Ok (set_pe_targets (Some (ungroup_targets_by_type tbt)) e)
  | _, None => Ok e
  end.

Fixpoint mapi {A B} (f : nat -> A -> B) (i : nat) (l : list A) : list B :=
  match l with [] => [] | x :: r => f i x :: mapi f (S i) r end.

(** preflight.py:68-149 *)
Definition preflight_distribute (now : nat -> Z) (events : list event_d) : result (list event_d) :=
  bind (mapM check_duration events) (fun events =>
  bind (mapM check_simple events) (fun _ =>
  let events := map (fun e => set_pe_signals (map (fix_current (pe_status e)) (pe_signals e)) e) events in
  bind (mapM (fun e => bind (mapM signal_namespace (pe_signals e)) (fun l => Ok (set_pe_signals l e))) events) (fun events =>
  let events := map fix_response events in
  let events := mapi (fun i => fix_created (now i)) 0 events in
  mapM check_targets events))).

(** ** oadrRegisterReport *)

(** A report description: everything but the measurement is opaque; None when
    there is no measurement. *)
Record report_d := mk_rd {
  rd_name : string;
  rd_specifier : scalar;
  rd_descriptions : list (scalar * option mdict) }.

(** enums.py:173-181 REPORT_NAME.values *)
Definition REPORT_NAME_values : list string :=
  ["HISTORY_GREENBUTTON"; "HISTORY_USAGE"; "METADATA_HISTORY_GREENBUTTON"; "METADATA_HISTORY_USAGE";
   "METADATA_TELEMETRY_STATUS"; "METADATA_TELEMETRY_USAGE"; "TELEMETRY_STATUS"; "TELEMETRY_USAGE"].

(** preflight.py:47-50 *)
Definition fix_report_name (n : string) : string :=
  if inb n REPORT_NAME_values && negb (startswith "METADATA" n) then "METADATA_" ++ n else n.

Definition with_measurement (f : mdict -> result mdict) (d : scalar * option mdict) : result (scalar * option mdict) :=
  match snd d with None => Ok d | Some m => bind (f m) (fun m => Ok (fst d, Some m)) end.

(** preflight.py:45-65 *)
Definition preflight_register (reports : list report_d) : result (list report_d) :=
  mapM (fun r =>
    bind (mapM (with_measurement validate_report_measurement_dict) (rd_descriptions r)) (fun ds =>
    bind (mapM (with_measurement add_namespace) ds) (fun ds =>
    Ok (mk_rd (fix_report_name (rd_name r)) (rd_specifier r) ds)))) reports.

(** report_service.py:95-97: the name under which the VTN keeps the report:
    text[9:]. *)
Fixpoint drop (n : nat) (s : string) : string :=
  match n, s with S n, String _ r => drop n r | _, _ => s end.
Definition registered_name (n : string) : string := drop 9 n.
