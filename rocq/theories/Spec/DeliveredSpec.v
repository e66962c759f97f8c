(** The values of a report, and who gets them. *)
From Coq Require Import ZArith String List Bool.
From Verif.Base Require Import Result.
From Verif.Model Require Import Normalize VtnService Handling.
Import ListNotations.
Local Open Scope string_scope.

(** An interval has a value for an r_id at a time. *)
Definition reading (interval : val) (r : val * (val * val)) : Prop :=
  exists i p, interval = VDict i /\ vget "dtstart" i = Some (fst (snd r)) /\ vget "report_payload" i = Some (VDict p)
    /\ vget "r_id" p = Some (fst r) /\ vget "value" p = Some (snd (snd r))
    /\ (forall l, fst r <> VList l) /\ (forall d, fst r <> VDict d).
(** The values for one r_id, in their order *)
Fixpoint values_for (k : val) (rs : list (val * (val * val))) : list (val * val) :=
  match rs with
  | [] => []
  | (k', x) :: r => if val_eq_dec k' k then x :: values_for k r else values_for k r
  end.
(** A report that was requested as [id] and has these values: each of the
    callbacks that there are for one of its r_ids gets all the values of this
    r_id, once. *)
Definition given (s : services) (report : val) (acts : list act) : Prop :=
  exists d id intervals rs, report = VDict d /\ vget "report_request_id" d = Some id /\ vget "intervals" d = Some (VList intervals) /\ Forall2 reading intervals rs
    /\ NoDup acts
    /\ (forall a, In a acts <-> exists k, a = Delivers id k (values_for k rs) /\ In k (map fst rs) /\ In (id, k) (s_callbacks s)).
Definition complete (report : val) : Prop :=
  exists d id intervals rs, report = VDict d /\ vget "report_request_id" d = Some id /\ vget "intervals" d = Some (VList intervals) /\ Forall2 reading intervals rs.

(** What a handler does with a message that does not say which VEN it is from. *)
Inductive without_id (s : services) (p : payload) : string -> list act -> outcome -> Prop :=
| Id_needed t : In t ["oadrPoll"; "oadrRequestEvent"; "oadrCreatedEvent"] -> without_id s p t [] (Raises KeyError)
| No_reports : pget_none "reports" p = Val SNone -> without_id s p "oadrRegisterReport" [] Returns
| Some_reports l : pget "reports" p = Some (Other (VList l)) -> without_id s p "oadrRegisterReport" [] (Raises KeyError)
| Own_created : s_created_report s = true -> without_id s p "oadrCreatedReport" [Calls "on_created_report"] Returns
| Default_created : s_created_report s = false -> without_id s p "oadrCreatedReport" [] (Raises KeyError)
| Own_registered : s_registered_report s = true -> without_id s p "oadrRegisteredReport" [Calls "on_registered_report"] Returns
| Default_registered : s_registered_report s = false -> without_id s p "oadrRegisteredReport" [] (Raises KeyError)
| Cancelled : without_id s p "oadrCancelPartyRegistration" [Calls "on_cancel_party_registration"] Returns.
