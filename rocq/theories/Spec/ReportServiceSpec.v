(** Vocabulary for C72-C74: what was asked, confirmed and delivered in the
    life of a VTN's report service. *)
From Coq Require Import ZArith String List.
From Verif.Base Require Import Result.
From Verif.Model Require Import Reports ReportService.
From Verif.Spec Require Import ReportSpec.
Import ListNotations.
Local Open Scope list_scope.

(** [asks m v dss]: in message [m], VEN [v] offers reports, and for the k-th
    of them the handler asks for the data points [nth k dss]. *)
Inductive asks : message -> scalar -> (nat -> string) -> list offered -> list (list demand) -> Prop :=
| asks_all fresh h v reports ess dss : (forall a b, fresh a = fresh b -> a = b) ->
    all_answers h v 0 reports ess -> length ess = length dss -> Forall2 (fun r p => clear r (fst p) (snd p)) reports (combine ess dss) ->
    asks (Register fresh h v (Some reports)) v fresh reports dss.

(** Every registration is answered with requests (no handler raises or mixes
    valid and invalid answers, see C45). *)
Definition answered (m : message) : Prop :=
  forall fresh h v reports, m = Register fresh h v (Some reports) -> exists dss, asks m v fresh reports dss.

(** [gives m key c]: in [m] the callback [c] is given for the data point
    [snd key] of the request with the id [fst key]. *)
Definition gives (m : message) (v : scalar) (key : string * scalar) (c : nat) : Prop :=
  exists fresh reports dss k ds, asks m v fresh reports dss /\ nth_error dss k = Some ds /\ registers (fresh k) ds key c.

(** The callback given last. *)
Inductive given : list message -> string * scalar -> nat -> Prop :=
| given_last hist m v key c : gives m v key c -> given (hist ++ [m]) key c
| given_before hist m key c : given hist key c -> (forall v c', ~ gives m v key c') -> given (hist ++ [m]) key c.

(** The deliveries of one report. *)
Definition reaches (hist : list message) (report : received) (ds : list delivery) : Prop :=
  exists rids, NoDup rids /\
    (forall r, In r rids <-> In r (map ri_rid (rc_intervals report)) /\ exists c, given hist (rc_request report, r) c) /\
    Forall2 (fun r d => exists c, given hist (rc_request report, r) c /\ d = Deliver c (pairs_of r (rc_intervals report))) rids ds.

(** Ids that VEN [v] has confirmed. *)
Definition confirmed (hist : list message) (v : scalar) (id : string) : Prop :=
  exists pending, In (Created v pending) hist /\ In id pending.

(** The requests with which the last offer of VEN [v] was answered. *)
Inductive wanted : list message -> scalar -> list request -> Prop :=
| wanted_last hist m v fresh reports dss qs : asks m v fresh reports dss -> expected fresh 0 reports dss qs -> wanted (hist ++ [m]) v qs
| wanted_before hist m v qs : wanted hist v qs -> (forall fresh reports dss, ~ asks m v fresh reports dss) -> wanted (hist ++ [m]) v qs.

(** [rest] is what of [qs] satisfies [P], in order. *)
Inductive picks {A} (P : A -> Prop) : list A -> list A -> Prop :=
| picks_nil : picks P [] []
| picks_in x l rest : P x -> picks P l rest -> picks P (x :: l) (x :: rest)
| picks_out x l rest : ~ P x -> picks P l rest -> picks P (x :: l) rest.
