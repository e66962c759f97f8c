(** C71: delivery callbacks. *)
From Coq Require Import ZArith String List Bool Lia Sorting.Permutation.
From Verif.Base Require Import Result Dict PyStr ListExtra.
From Verif.Model Require Import Objects EventTime EventService.
From Verif.Spec Require Import EventSpec QueueSpec DeliverySpec.
From Verif.Proofs Require Import EventTimeProofs QueueProofs QueueHistory QueueLaws DeliveryProofs.
From Verif.Properties Require Import P_Queue.
Import ListNotations.
Local Open Scope string_scope.
Local Open Scope Z_scope.

Definition comes_in (t : nat) (v : scalar) (ls : list label) : Prop := exists clock rest, ls = LPoll t v clock :: rest \/ ls = LRequest t v clock :: rest.

(** The full claim: when the events are sent, the delivery callback of each of
    them has been called once, in order, and none else, whatever ran in
    between (but no delivery callbacks were set meanwhile). *)
Definition C71_full : Prop := forall local s0 h es0 s t v ls c es s' evs, initial s0 -> runs local any s0 h es0 s ->
  serving local t s ls c es s' -> comes_in t v ls -> Forall no_new_callback ls -> In (ESent t v evs) es ->
  announced (informs s) (silent s) (ids_of evs) c.

(** It holds when the VEN has two or more events, whatever runs in between;
    with delivery callbacks that are set meanwhile: each event that had one
    from the start is announced once, with a callback it had at some time. *)
Theorem C71_several_partial : forall local s0 h es0 s t v ls c es s' evs, initial s0 -> runs local any s0 h es0 s -> (2 <= length (queue s v))%nat ->
  serving local t s ls c es s' -> comes_in t v ls -> In (ESent t v evs) es ->
  Permutation (queue s v) (map fst evs) /\ announced (informed_during local t s ls) (silent s) (ids_of evs) c /\
  (Forall no_new_callback ls -> announced (informs s) (silent s) (ids_of evs) c).
Proof.
  intros local s0 h es0 s t v ls c es s' evs I0 R TWO SV CI SE.
  assert (ND : NoDup (keys (tasks s))) by (eapply runs_nodup_tasks; [exact R|now apply initial_nodup]).
  assert (LT : forall r, In r (queue s v) -> (r < next s)%nat) by (intros r I; eapply (pending_added _ _ _ _ _ _ I0 R v r); now left).
  destruct (serving_progress local t v s ltac:(lia) LT ND ls c es s' SV CI) as (o & PM & [(p & i & _ & _ & _ & N)|(_ & H)]); [now apply N in SE|].
  destruct (H v evs SE) as (_ & E & IDS & A). rewrite E. split; [exact PM|]. rewrite IDS. split; [exact A|].
  intros F. eapply announced_weaken; [| |exact A]; [|auto]. intros id n (ls1 & ls2 & c1 & es1 & s1 & -> & S1 & I1).
  apply Forall_app in F as [F _]. unfold informs in *. now rewrite <- (no_new_deliveries _ _ _ _ _ _ _ S1 F).
Qed.
Print Assumptions C71_several_partial.

(** With one event it holds as long as nothing else happens that is about the
    VEN. *)
Theorem C71_single_partial : forall local s0 h es0 s t v r ls c es s' evs, initial s0 -> runs local any s0 h es0 s -> queue s v = [r] ->
  serving local t s ls c es s' -> comes_in t v ls -> calm local t v s ls -> In (ESent t v evs) es ->
  announced (informed_during local t s ls) (silent s) (ids_of evs) c /\ (Forall no_new_callback ls -> announced (informs s) (silent s) (ids_of evs) c).
Proof.
  intros local s0 h es0 s t v r ls c es s' evs I0 R ONE SV CI CALM SE.
  assert (ND : NoDup (keys (tasks s))) by (eapply runs_nodup_tasks; [exact R|now apply initial_nodup]).
  assert (LT : (r < next s)%nat) by (eapply (pending_added _ _ _ _ _ _ I0 R v r); left; rewrite ONE; now left).
  destruct (serving_single local t v s r ONE LT ND ls c es s' SV CI CALM) as (o & _ & _ & [(p & i & _ & _ & _ & N)|(_ & H)]); [now apply N in SE|].
  destruct (H v evs SE) as (_ & E & IDS & A). rewrite IDS. split; [exact A|].
  intros F. eapply announced_weaken; [| |exact A]; [|auto]. intros id n (ls1 & ls2 & c1 & es1 & s1 & -> & S1 & I1).
  apply Forall_app in F as [F _]. unfold informs in *. now rewrite <- (no_new_deliveries _ _ _ _ _ _ _ S1 F).
Qed.
Print Assumptions C71_single_partial.

Fixpoint serve (local : Z -> Z) (t : nat) (s : state) (ls : list label) : option (list (nat * scalar) * list effect * state) :=
  match ls with
  | [] => Some ([], [], s)
  | l :: rest => match step local s l with
                 | None => None
                 | Some (s1, es1) => match serve local t s1 rest with
                                     | None => None
                                     | Some (c, es, s2) => Some ((if part_of t l then delivered es1 else []) ++ c, es1 ++ es, s2)%list
                                     end
                 end
  end.
Lemma serve_serving local t ls : forall s ls0 c0 es0 s1 c es s2, serving local t s ls0 c0 es0 s1 -> Forall (fun l => ~ starts l t) ls -> serve local t s1 ls = Some (c, es, s2) ->
  serving local t s (ls0 ++ ls) (c0 ++ c) (es0 ++ es) s2.
Proof.
  induction ls as [|l ls IH]; intros s ls0 c0 es0 s1 c es s2 S F E; cbn [serve] in E.
  - injection E as <- <- <-. now rewrite !app_nil_r.
  - inversion F as [|? ? N F']; subst. destruct (step local s1 l) as [[s3 es1]|] eqn:ST; [|discriminate]. destruct (serve local t s3 ls) as [[[c1 es2] s4]|] eqn:SE; [|discriminate].
    injection E as <- <- <-. change (l :: ls) with ([l] ++ ls)%list. rewrite !app_assoc. eapply IH; [|exact F'|exact SE]. now apply serving_next with (s1 := s1).
Qed.
Lemma serve_all local t s l ls s1 es1 c es s2 : starts l t -> Forall (fun l => ~ starts l t) ls -> step local s l = Some (s1, es1) -> serve local t s1 ls = Some (c, es, s2) ->
  serving local t s (l :: ls) (delivered es1 ++ c) (es1 ++ es) s2.
Proof. intros S F ST SE. change (l :: ls) with ([l] ++ ls)%list. eapply serve_serving; [exact (serving_first local t s l es1 s1 S ST)|exact F|exact SE]. Qed.

(** With one event it fails when the event is confirmed as cancelled while its
    delivery callback runs: the callback is called and nothing is sent. *)
Definition C71_before : list label := [LAdd v1 (New (ex_event "e1" 100 50)) None true (Some 7%nat); LCancel v1 (SStr "e1")].
Definition C71_during : list label := [LRequest 0 v1 (at_time 10); LCreated 1 v1 [mk_resp (SStr "e1") (SInt 1) (SStr "optIn")]; LResume 0 (Ok tt)].
Theorem C71_single_refuted : ~ C71_full.
Proof.
  intros F.
  assert (S : exists s', serving (fun w => w) 0 (ex_state C71_before) C71_during [(7%nat, SStr "e1")] [EDelivery 7 (SStr "e1"); EAck 1 v1; ESent 0 v1 []] s').
  { eexists. change [(7%nat, SStr "e1")] with (delivered [EDelivery 7 (SStr "e1")] ++ [])%list. change [EDelivery 7 (SStr "e1"); EAck 1 v1; ESent 0 v1 []] with ([EDelivery 7 (SStr "e1")] ++ [EAck 1 v1; ESent 0 v1 []])%list.
    eapply serve_all; [reflexivity|repeat constructor; cbn; [discriminate|tauto]|vm_compute; reflexivity|vm_compute; reflexivity]. }
  destruct S as (s' & S).
  specialize (F (fun w => w) ex_zero C71_before (ex_effects C71_before) (ex_state C71_before) 0%nat v1 C71_during _ _ s' [] ex_initial ltac:(apply ex_runs; vm_compute; discriminate) S).
  specialize (F ltac:(eexists _, _; right; reflexivity) ltac:(repeat constructor) ltac:(right; right; now left)). inversion F.
Qed.
Print Assumptions C71_single_refuted.

(** Two events, one with a callback; a third event is added while it runs. *)
Example C71_example :
  let before := [LAdd v1 (New (ex_event "e1" 100 50)) None true None; LAdd v1 (New (ex_event "e2" 200 50)) None true (Some 7%nat)] in
  let during := [LPoll 0 v1 (at_time 10); LAdd v1 (New (ex_event "e3" 300 50)) None true None; LResume 0 (Ok tt)] in
  runs (fun w => w) any ex_zero before (ex_effects before) (ex_state before) /\ (2 <= length (queue (ex_state before) v1))%nat /\ comes_in 0 v1 during /\ Forall no_new_callback during /\
  exists es s', serving (fun w => w) 0 (ex_state before) during [(7%nat, SStr "e2")] es s' /\ exists evs, In (ESent 0 v1 evs) es /\ ids_of evs = [SStr "e1"; SStr "e2"].
Proof.
  intros before during. split; [apply ex_runs; vm_compute; discriminate|]. split; [vm_compute; apply le_n|]. split; [eexists _, _; left; reflexivity|]. split; [repeat constructor|].
  eexists _, _. split.
  - change [(7%nat, SStr "e2")] with (delivered [EDelivery 7 (SStr "e2")] ++ [])%list.
    eapply serve_all; [reflexivity|repeat constructor; cbn; tauto|vm_compute; reflexivity|vm_compute; reflexivity].
  - eexists. split; [right; left; reflexivity|reflexivity].
Qed.
