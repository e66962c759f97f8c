(** Vocabulary for C78: a VTN asks a VEN for reports, and the values the VEN
    samples come back. *)
From Coq Require Import ZArith String List.
From Verif.Base Require Import Result Dict.
From Verif.Model Require Import Reports ReportService.
From Verif.Model Require ClientReports.
Import ListNotations.

(** The VTN's request [q] as the VEN gets it. *)
Definition conveys (q : request) (c : ClientReports.creq) : Prop :=
  ClientReports.cq_id c = SStr (rq_id q) /\ ClientReports.cq_specifier c = SStr (rq_specifier q) /\
  ClientReports.cq_back c = Some (rq_back q) /\ ClientReports.cq_gran c = Some (rq_granularity q) /\
  ClientReports.cq_payloads c = map (fun p => ClientReports.mk_sp (fst p) None) (rq_payloads q).

(** The VEN's report [og] as the VTN gets it. *)
Definition carries (og : ClientReports.outgoing) (r : received) : Prop :=
  ClientReports.og_request og = SStr (rc_request r) /\
  rc_intervals r = map (fun i => mk_rinterval (ClientReports.oi_rid i) (ClientReports.oi_dtstart i) (ClientReports.oi_value i)) (ClientReports.og_intervals og).

(** The values of data point [r], with their times. *)
Definition values_of (r : scalar) (l : list ClientReports.oint) : list (Z * scalar) :=
  map (fun i => (ClientReports.oi_dtstart i, ClientReports.oi_value i)) (filter (fun i => if scalar_eq_dec (ClientReports.oi_rid i) r then true else false) l).

(** Everything that callback [c] is called with. *)
Definition values_for (c : nat) (ds : list delivery) : list (Z * scalar) :=
  flat_map (fun d => match d with Deliver c' l => if Nat.eqb c' c then l else [] | Unclaimed _ => [] end) ds.

(** [served user v hist msgs ds]: in the state after [hist] the VTN handles
    these reports, one message each, without an error. *)
Inductive served (user : delivery -> result unit) (v : scalar) (hist : list message) : list received -> list delivery -> Prop :=
| sv_nil : served user v hist [] []
| sv_next r rs ds ds' : snd (handle (Update user v [r]) (after hist)) = Delivered ds (Ok tt) -> served user v hist rs ds' ->
    served user v hist (r :: rs) (ds ++ ds').
