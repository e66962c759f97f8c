(** C01, C02: replay protection. *)
From Coq Require Import ZArith String List Bool Lia Permutation.
From Verif.Base Require Import Result.
From Verif.Model Require Import DateTime Replay.
From Verif.Spec Require Import Timestamp ReplaySpec.
From Verif.Proofs Require Import DateTimeProofs ReplayProofs.
Import ListNotations.
Local Open Scope string_scope.
Local Open Scope Z_scope.

(** Vocabulary: [presents], [clock_ok], [shuffles_ok] are in Spec/ReplaySpec.v. *)

(** ** C01 *)
Theorem C01_accepted_at_most_once :
  forall h i j ci cj e,
    clock_ok h -> shuffles_ok h -> (i < j)%nat ->
    nth_error h i = Some ci -> nth_error h j = Some cj -> presents ci e -> presents cj e ->
    nth_error (history_outcomes h) i = Some (Ok tt) ->
    nth_error (history_outcomes h) j = Some (Raise ValueError).
Proof.
  intros h i j ci cj e CL SH L HI HJ PI PJ OI. unfold history_outcomes in *.
  pose proof (at_most_once h CL SH [] i j ci cj e L HI HJ PI PJ OI) as N.
  destruct (outcomes_nth h [] j cj HJ) as (cache & o & EO & ED). rewrite EO in *.
  destruct (outcome_kinds _ _ _ _ _ ED PJ) as [->| ->]; congruence.
Qed.
Print Assumptions C01_accepted_at_most_once.

Definition stamp0 := "2024-05-01T10:00:00.000000Z".
Definition t0 : Z := instant (mkdt 2024 5 1 10 0 0 0 0).
Definition mk (now : Z) (ts n : string) : check :=
  {| ck_ts := Some ts; ck_nonce := Some n; ck_now := now; ck_clk := fun _ => now; ck_shuffle := @rev entry |}.

Lemma presents_mk now n : presents (mk now stamp0 n) (t0, n).
Proof.
  apply presents_iff. exists stamp0, (mkdt 2024 5 1 10 0 0 0 0). repeat split; vm_compute; reflexivity.
Qed.

(** The hypotheses are met by a history with a replay and unrelated traffic. *)
Example C01_example :
  let h := [mk t0 stamp0 "a"; mk (t0 + 1000000) stamp0 "b"; mk (t0 + 5000000) stamp0 "a"; mk (t0 + 9000000) stamp0 "a"] in
  clock_ok h /\ shuffles_ok h /\ presents (mk t0 stamp0 "a") (t0, "a") /\
  history_outcomes h = [Ok tt; Ok tt; Raise ValueError; Raise ValueError].
Proof.
  cbv zeta. split; [|split; [|split]].
  - generalize t0 as z; intros z. simpl. repeat split; intros; repeat (destruct H as [<-|H]); simpl; try lia; contradiction.
  - intros c H l. simpl in H. repeat (destruct H as [<-|H]); try contradiction; apply Permutation_sym, Permutation_rev.
  - apply presents_mk.
  - vm_compute. reflexivity.
Qed.

(** The clock hypothesis is needed: after a step back by more than the
    window, a pruned pair is accepted again. *)
Theorem C01_clock_hypothesis_needed :
  exists h i j ci cj e,
    shuffles_ok h /\ (i < j)%nat /\
    nth_error h i = Some ci /\ nth_error h j = Some cj /\ presents ci e /\ presents cj e /\
    nth_error (history_outcomes h) i = Some (Ok tt) /\ nth_error (history_outcomes h) j = Some (Ok tt).
Proof.
  exists [mk t0 stamp0 "a"; mk (t0 + 10000000) "2024-05-01T10:00:10.000000Z" "b"; mk t0 stamp0 "a"], 0%nat, 2%nat.
  do 2 eexists. exists (t0, "a").
  split; [intros c H l; simpl in H; repeat (destruct H as [<-|H]); try contradiction; apply Permutation_sym, Permutation_rev|].
  split; [lia|]. split; [reflexivity|]. split; [reflexivity|].
  split; [apply presents_mk|]. split; [apply presents_mk|]. split; vm_compute; reflexivity.
Qed.
Print Assumptions C01_clock_hypothesis_needed.

(** ** C02 *)

(** A check succeeds exactly when the element is well-formed, at most five
    seconds old, and the pair is not in the cache. *)
Theorem C02_accept_iff :
  forall c cache,
    fst (do_check c cache) = Ok tt <->
    exists e, presents c e /\ ck_now c - 5000000 <= fst e /\ ~ In e cache.
Proof. exact do_check_ok_iff. Qed.
Print Assumptions C02_accept_iff.

(** Over a whole history: a well-formed check succeeds exactly when it is
    fresh and the pair was not accepted before. *)
Theorem C02_accept_iff_fresh_and_new :
  forall h j c e, clock_ok h -> shuffles_ok h -> nth_error h j = Some c -> presents c e ->
    (nth_error (history_outcomes h) j = Some (Ok tt) <->
     ck_now c - 5000000 <= fst e /\
     forall i ci, (i < j)%nat -> nth_error h i = Some ci -> presents ci e ->
       nth_error (history_outcomes h) i <> Some (Ok tt)).
Proof.
  intros h j c e CL SH HJ P.
  destruct (outcome_ok_iff_gen h CL SH [] j c e HJ P) as [H|[]]. unfold history_outcomes. rewrite H.
  change max_delta with 5000000. simpl. tauto.
Qed.
Print Assumptions C02_accept_iff_fresh_and_new.

(** A rejected check leaves the cache as it was. *)
Theorem C02_reject_changes_nothing :
  forall c cache, fst (do_check c cache) <> Ok tt -> snd (do_check c cache) = cache.
Proof. exact do_check_reject_cache. Qed.
Print Assumptions C02_reject_changes_nothing.

(** After an accepted check: only old entries and the new one, each not older
    than five seconds at some clock reading of the pruning ... *)
Theorem C02_cache_bounded :
  forall c cache e x, (forall l, Permutation (ck_shuffle c l) l) ->
    fst (do_check c cache) = Ok tt -> presents c e -> In x (snd (do_check c cache)) ->
    (x = e \/ In x cache) /\ exists k, ck_clk c k - 5000000 <= fst x.
Proof.
  intros c cache e x SH OK P I. rewrite (do_check_ok_cache _ _ _ OK P) in I.
  now apply update_in in I.
Qed.
Print Assumptions C02_cache_bounded.

(** ... in particular, with a single clock reading nothing stale remains ... *)
Theorem C02_nothing_stale_kept :
  forall c cache now x, (forall l, Permutation (ck_shuffle c l) l) -> (forall i, ck_clk c i = now) ->
    fst (do_check c cache) = Ok tt -> In x (snd (do_check c cache)) -> now - 5000000 <= fst x.
Proof.
  intros c cache now x SH CK OK I. pose proof OK as OK2. apply do_check_ok_iff in OK2 as (e & P & _).
  destruct (C02_cache_bounded c cache e x SH OK P I) as (_ & k & K). now rewrite CK in K.
Qed.
Print Assumptions C02_nothing_stale_kept.

(** ... and nothing that is still fresh is lost. *)
Theorem C02_nothing_fresh_lost :
  forall c cache e x, (forall l, Permutation (ck_shuffle c l) l) ->
    fst (do_check c cache) = Ok tt -> presents c e -> (x = e \/ In x cache) ->
    (forall k, ck_clk c k - 5000000 <= fst x) -> In x (snd (do_check c cache)).
Proof.
  intros c cache e x SH OK P I F. rewrite (do_check_ok_cache _ _ _ OK P).
  destruct (update_keeps (ck_shuffle c) (ck_clk c) e cache x SH I) as [|(k & K)]; [assumption|].
  specialize (F k). change max_delta with 5000000 in K. lia.
Qed.
Print Assumptions C02_nothing_fresh_lost.

Example C02_example :
  let c := mk (t0 + 4000000) stamp0 "n" in
  presents c (t0, "n") /\ fst (do_check c [(t0 - 2000000, "old"); (t0, "new")]) = Ok tt
  /\ snd (do_check c [(t0 - 2000000, "old"); (t0, "new")]) = [(t0, "n"); (t0, "new")]
  /\ fst (do_check c [(t0, "n")]) = Raise ValueError
  /\ fst (do_check (mk (t0 + 5000001) stamp0 "n") []) = Raise ValueError.
Proof.
  cbv zeta. split; [apply presents_mk|].
  repeat split; vm_compute; reflexivity.
Qed.

(** Finding: a timestamp text that is no timestamp is not rejected with a
    ValueError but with a TypeError, whenever a nonce is present. *)
Theorem C02_malformed_timestamp_type_error :
  forall c cache text n, ck_ts c = Some text -> ck_nonce c = Some n ->
    (~ exists y mo d h mi s us, timestamp_text text y mo d h mi s us) ->
    do_check c cache = (Raise TypeError, cache).
Proof.
  intros c cache text n E1 E2 E3. unfold do_check, verify_replay_protect. rewrite E1, E2.
  destruct (timestamp_text_dec text) as [T|T]; [contradiction|]. now rewrite T.
Qed.
Print Assumptions C02_malformed_timestamp_type_error.
