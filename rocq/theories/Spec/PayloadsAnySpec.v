(** What must hold of a payload for C86, wherever it came from. *)
From Coq Require Import ZArith String Ascii List Bool.
From Verif.Base Require Import Result Dict PyStr.
From Verif.Model Require Import Normalize.
From Verif.Spec Require Import XmlTextSpec PayloadSpec.
Import ListNotations.
Local Open Scope string_scope.

(** [within v w]: the value [w] is somewhere in the value [v]. *)
Inductive within : val -> val -> Prop :=
| within_itself v : within v v
| within_dict d k v w : In (k, v) d -> within v w -> within (VDict d) w
| within_list l v w : In v l -> within v w -> within (VList l) w.

Definition absent (k : string) (d : vdict) : Prop := get String.eqb k d = None \/ get String.eqb k d = Some VNone.
(** The name of a measurement is a name, and its prefix is one that is
    declared where it is written. *)
Definition proper_measurement (m : vdict) : Prop :=
  exists p n, get String.eqb "ns" m = Some (VStr p) /\ get String.eqb "name" m = Some (VStr n) /\ usual_prefix p /\ name n.
Definition orderly (d : vdict) : Prop :=
  absent "emix_interfaces" d /\ absent "report_requests" d /\
  (absent "measurement" d \/ exists m, get String.eqb "measurement" d = Some (VDict m) /\ proper_measurement m).

(** The kinds of messages, and those with measurements or targets in them. *)
Definition plain_kinds : list string :=
  ["oadrCancelOpt"; "oadrCancelPartyRegistration"; "oadrCancelReport"; "oadrCanceledOpt"; "oadrCanceledPartyRegistration"; "oadrCanceledReport";
   "oadrCreatePartyRegistration"; "oadrCreateReport"; "oadrCreatedEvent"; "oadrCreatedOpt"; "oadrCreatedPartyRegistration"; "oadrCreatedReport"; "oadrPoll";
   "oadrQueryRegistration"; "oadrRegisteredReport"; "oadrRequestEvent"; "oadrRequestReregistration"; "oadrResponse"; "oadrUpdatedReport"].
Definition risky_kinds : list string := ["oadrCreateOpt"; "oadrDistributeEvent"; "oadrRegisterReport"; "oadrUpdateReport"].
Definition message_kinds : list string := (plain_kinds ++ risky_kinds)%list.
Definition presentable (kind : string) (payload : vdict) : Prop :=
  In kind plain_kinds \/ (In kind risky_kinds /\ forall d, within (VDict payload) (VDict d) -> orderly d).

(** No text in the payload has mark-up in it, nor has what is printed of other
    values.  (Texts are also the keys of dicts, and floats as they are
    written.) *)
Definition unmarked_value (other : val -> string) (v : val) : Prop :=
  match v with
  | VStr s => unmarked s
  | VFloat t => unmarked t
  | VDict d => (forall k w, In (k, w) d -> unmarked k) /\ unmarked (other v)
  | VList _ | VTime _ | VDur _ => unmarked (other v)
  | VNone | VBool _ | VInt _ => True
  end.
Definition unmarked_payload (other : val -> string) (payload : vdict) : Prop := forall k v w, In (k, v) payload -> within v w -> unmarked_value other w.
