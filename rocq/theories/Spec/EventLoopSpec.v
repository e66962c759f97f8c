(** Vocabulary for C77: an event goes from the VTN to a VEN, and the VEN's
    choice goes back. *)
From Coq Require Import ZArith String List Bool.
From Verif.Base Require Import Result Dict.
From Verif.Model Require Import Objects EventTime EventService.
From Verif.Model Require ClientEvents.
From Verif.Spec Require Import QueueSpec.
Import ListNotations.
Local Open Scope Z_scope.

(** A response of the VEN as it arrives at the VTN. *)
Definition arrived (r : ClientEvents.response) : response :=
  mk_resp (ClientEvents.rs_id r) (SInt (ClientEvents.rs_mod r)) (ClientEvents.rs_opt r).

(** What the VTN does about responses: the callback that [known] has for an id
    is called with the choice, or the future gets it unless it is in [over]
    (the futures that have a result already). *)
Inductive reports (v : scalar) (known : scalar -> option callback) : list nat -> list response -> list effect -> Prop :=
| rp_nil over : reports v known over [] []
| rp_none over r rs es : known (rs_id r) = None -> reports v known over rs es -> reports v known over (r :: rs) es
| rp_fun over r rs es n : known (rs_id r) = Some (CFun n) -> reports v known over rs es ->
    reports v known over (r :: rs) (ECall n v (rs_id r) (rs_opt r) :: es)
| rp_fut over r rs es f : known (rs_id r) = Some (CFut f) -> ~ In f over -> reports v known (f :: over) rs es ->
    reports v known over (r :: rs) (EResult f v (rs_id r) (rs_opt r) :: es)
| rp_over over r rs es f : known (rs_id r) = Some (CFut f) -> In f over -> reports v known over rs es ->
    reports v known over (r :: rs) es.

Definition known_callback (s : state) (id : scalar) : option callback := get scalar_eqb id (callbacks s).

(** Between [s] and [s'] the server has done nothing to the events of the VEN
    or to the callbacks for the ids. *)
Definition untouched (v : scalar) (ids : list scalar) (s s' : state) : Prop :=
  queue s' v = queue s v /\ (forall r, In r (queue s v) -> heap s' r = heap s r) /\
  (forall id, In id ids -> known_callback s' id = known_callback s id) /\
  (forall id f, In id ids -> known_callback s id = Some (CFut f) -> In f (done s') <-> In f (done s)).

(** [answering local t v rs s es s']: the responses [rs] come in as request
    [t] in state [s]; [es] are the effects of this request up to [s'].  Its
    callbacks return.  Other calls and requests may run in between that leave
    the events of the VEN alone. *)
Inductive answering (local : Z -> Z) (t : nat) (v : scalar) (rs : list response) (s : state) : list effect -> state -> Prop :=
| as_first s1 es : step local s (LCreated t v rs) = Some (s1, es) -> answering local t v rs s es s1
| as_next es s1 es1 s2 : answering local t v rs s es s1 -> step local s1 (LResume t (Ok tt)) = Some (s2, es1) ->
    answering local t v rs s (es ++ es1) s2
| as_other es s1 ls es1 s2 : answering local t v rs s es s1 -> runs local any s1 ls es1 s2 ->
    get Nat.eqb t (tasks s2) = get Nat.eqb t (tasks s1) -> untouched v (map rs_id rs) s1 s2 -> answering local t v rs s es s2.

(** The request is no longer being worked on. *)
Definition over (t : nat) (s : state) : Prop := get Nat.eqb t (tasks s) = None.
