(** Vocabulary for C69 and C70: opts. *)
From Coq Require Import ZArith String Ascii List Bool.
From Verif.Base Require Import Result.
From Verif.Model Require Import DateTime Normalize Xml XmlParty XmlOpt Objects ClientOpts.
From Verif.Spec Require Import MessageSpec PartySpec.
Import ListNotations.
Local Open Scope string_scope.
Local Open Scope Z_scope.

(** ** C69: messages *)
Definition good_component (c : datetime * Z) : Prop := good_time (fst c) /\ good_duration (snd c).
Definition full_target (t : Xml.target) : Prop := forall k f, In (k, f) kinds -> good plain (f t).
Definition good_opt (o : opt_message) : Prop :=
  plain (om_id o) /\ plain (om_type o) /\ plain (om_reason o) /\ good plain (om_market o) /\ good (Forall good_component) (om_availability o) /\
  good_time (om_created o) /\ good (fun e => plain (fst e)) (om_event o) /\ Forall full_target (om_targets o) /\ good plain (om_mrid o).
Definition component_arrived (c : datetime * Z) (v : val) : Prop :=
  holds v ["dtstart"] (is_time (fst c)) /\ holds v ["duration"] (is_duration (snd c)).
Definition opt_arrived_but_lists (request_id ven_id : string) (o : opt_message) (v : val) : Prop :=
  holds v ["opt_id"] (is_text (om_id o)) /\ holds v ["opt_type"] (is_text (om_type o)) /\ holds v ["opt_reason"] (is_text (om_reason o)) /\
  holds_opt v ["market_context"] is_text (om_market o) /\ holds v ["ven_id"] (is_text ven_id) /\ holds v ["created_date_time"] (is_time (om_created o)) /\
  holds v ["request_id"] (is_text request_id) /\
  holds_opt v ["event_id"] (fun e => is_text (fst e)) (om_event o) /\ holds_opt v ["modification_number"] (fun e => is_int (snd e)) (om_event o) /\
  holds_opt v ["device_class"; "end_device_asset"; "mrid"] is_text (om_mrid o).
(** The targets as a list and by type. *)
Definition opt_targets_arrived (o : opt_message) (v : val) : Prop := targets_arrived (om_targets o) v.
(** The availability as it was given: a list of starts and durations. *)
Definition availability_arrived (o : opt_message) (v : val) : Prop :=
  match om_availability o with
  | Some cs => holds_list v ["vavailability"; "components"] component_arrived cs
  | None => at_path ["vavailability"] v = None
  end.

(** ** C70: the list of opts *)
(** The arguments make an opt. *)
Definition acceptable (a : create_args) : Prop :=
  In (ca_type a) ["optIn"; "optOut"] /\
  In (ca_reason a) ["economic"; "emergency"; "mustRun"; "notParticipating"; "outageRunStatus"; "overrideStatus"; "participating"; "x-schedule"] /\
  (forall m, ca_mrid a = Some m -> In m Constructors.SIGNAL_TARGET_MRID_values \/ exists s, m = ("x-" ++ s)%string) /\
  (ca_event a = None <-> ca_availability a = true) /\ ca_targets a <> None.
(** The id of the opt: the one that was given, unless it is empty. *)
Definition names (a : create_args) (generated : string) (id : scalar) : Prop :=
  (exists i, ca_id a = Some i /\ truthy_scalar i = true /\ id = i) \/
  ((forall i, ca_id a = Some i -> truthy_scalar i = false) /\ id = SStr generated).
Definition acknowledged (r : vtn_reply) : Prop := exists v, r = Answered (Some v).
(** No answer in the execution acknowledges a cancellation. *)
Definition unacknowledged (acts : list action) : Prop := forall n r, In (Answer n r) acts -> ~ acknowledged r.
(** The opts that an execution makes, in order. *)
Inductive made : list action -> list opt -> Prop :=
| made_nil : made [] []
| made_create a g now rest r acts id l : acceptable a -> names a g id -> made acts l -> made (Create a g now rest r :: acts) (mk_opt id rest :: l)
| made_refused a g now rest r acts l : ~ acceptable a -> made acts l -> made (Create a g now rest r :: acts) l
| made_cancel id r acts l : made acts l -> made (Cancel id r :: acts) l
| made_answer n r acts l : made acts l -> made (Answer n r :: acts) l.
(** How often an opt is on the list. *)
Definition occurrences (o : opt) (l : list opt) : nat := length (filter (opt_eqb o) l).
