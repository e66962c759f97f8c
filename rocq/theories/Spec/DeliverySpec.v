(** Vocabulary for C71: delivery callbacks. *)
From Coq Require Import ZArith String List Bool.
From Verif.Base Require Import Result Dict.
From Verif.Model Require Import Objects EventTime EventService.
From Verif.Spec Require Import QueueSpec.
Import ListNotations.
Local Open Scope Z_scope.

(** The delivery callbacks that effects show. *)
Definition delivered (es : list effect) : list (nat * scalar) :=
  flat_map (fun e => match e with EDelivery n id => [(n, id)] | _ => [] end) es.
(** The label executes part of the request [t]. *)
Definition part_of (t : nat) (l : label) : bool :=
  match l with LPoll t' _ _ | LRequest t' _ _ | LResume t' _ => Nat.eqb t' t | _ => false end.

(** [serving local t s ls c es s']: the request [t] comes in with the first
    label of [ls]; other requests and calls run in between; [c] are the delivery
    callbacks that this request has called, in order; [es] are all effects. *)
Inductive serving (local : Z -> Z) (t : nat) : state -> list label -> list (nat * scalar) -> list effect -> state -> Prop :=
| serving_first s l es s1 : starts l t -> step local s l = Some (s1, es) -> serving local t s [l] (delivered es) es s1
| serving_next s ls c es s1 l es1 s2 : serving local t s ls c es s1 -> ~ starts l t -> step local s1 l = Some (s2, es1) ->
    serving local t s (ls ++ [l]) (c ++ if part_of t l then delivered es1 else []) (es ++ es1) s2.

(** [announced known unknown ids c]: [c] has one call for every id in [ids], in
    that order, of a function known for it; ids that are not known are left
    out. *)
Inductive announced (known : scalar -> nat -> Prop) (unknown : scalar -> Prop) : list scalar -> list (nat * scalar) -> Prop :=
| an_nil : announced known unknown [] []
| an_call id n ids c : known id n -> announced known unknown ids c -> announced known unknown (id :: ids) ((n, id) :: c)
| an_skip id ids c : unknown id -> announced known unknown ids c -> announced known unknown (id :: ids) c.

(** The delivery callback of an event id. *)
Definition informs (s : state) (id : scalar) (n : nat) : Prop := get scalar_eqb id (deliveries s) = Some n.
Definition silent (s : state) (id : scalar) : Prop := get scalar_eqb id (deliveries s) = None.
(** It was [n] at some time while the request was served. *)
Definition informed_during (local : Z -> Z) (t : nat) (s : state) (ls : list label) (id : scalar) (n : nat) : Prop :=
  exists ls1 ls2 c es s1, ls = (ls1 ++ ls2)%list /\ serving local t s ls1 c es s1 /\ informs s1 id n.
(** While the request is served nothing else happens that is about the VEN. *)
Definition calm (local : Z -> Z) (t : nat) (v : scalar) (s : state) (ls : list label) : Prop :=
  forall ls1 l ls2 c es s1, ls = (ls1 ++ l :: ls2)%list -> serving local t s ls1 c es s1 -> part_of t l = true \/ ~ about s1 l v.
Definition no_new_callback (l : label) : Prop := match l with LAdd _ _ _ _ (Some _) => False | _ => True end.
Definition ids_of (evs : list (nat * event)) : list scalar := map (fun p => ev_id (snd p)) evs.
