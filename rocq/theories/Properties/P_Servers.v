(** C59: several servers in one process. *)
From Coq Require Import ZArith String List Bool Lia.
From Verif.Base Require Import Result Dict PyStr ListExtra.
From Verif.Model Require Import VtnService Servers.
From Verif.Spec Require Import VtnServiceSpec ServersSpec.
From Verif.Proofs Require Import VtnServiceProofs.
Import ListNotations.
Local Open Scope string_scope.
Local Open Scope Z_scope.

(** A server keeps its settings whatever servers are constructed before and
    after it. *)
Definition C59_full : Prop := forall before a after,
  let (sh, s) := construct a (construct_all before shared_initial) in let sh' := construct_all after sh in
  settings sh' s = own a /\ sh_sign sh' = Some (a_sign a).

(** ** Examples: the first server knows no VEN, the second takes any. *)
Definition nobody : ven_lookup_t := fun _ _ => Ok None.
Definition anybody : ven_lookup_t := fun _ _ => Ok (Some [("registration_id", SStr "r"); ("fingerprint", SStr "AA")]).
Definition ex_h : string -> payload -> result hresult := fun _ _ => Ok HNone.
Definition ex_first := mk_sargs (SStr "vtn1") (mk_sign (Some "CERT1") (Some "KEY1") None) None (Some nobody) true (Some 10000000) ["oadrPoll"] ex_h.
Definition ex_second := mk_sargs (SStr "vtn2") (mk_sign None None None) None (Some anybody) false None ["oadrPoll"] ex_h.
Definition ex_w : world :=
  mk_w (fun _ => Ok tt) (fun _ => Ok ("oadrPoll", [("ven_id", Val (SStr "ven1"))])) (fun _ => Raise AttributeError) (fun _ => Ok tt) (fun _ => Ok tt) (fun t _ => Ok t) (fun _ => Ok tt) "id".
Definition ex_rq := mk_rq "application/xml" (Ok "<x/>") true (Ok (Some "AA")).

(** The first server starts to serve an unknown VEN when the second one is
    constructed. *)
Example C59_example : let (sh, s) := construct ex_first shared_initial in
  fst (handler ex_w (settings sh s) ex_rq) = [] /\ fst (handler ex_w (settings (construct_all [ex_second] sh) s) ex_rq) = [Handled "oadrPoll" [("ven_id", Val (SStr "ven1"))]] /\
  sh_sign sh = Some (mk_sign (Some "CERT1") (Some "KEY1") None) /\ sh_sign (construct_all [ex_second] sh) = Some (mk_sign None None None).
Proof. vm_compute. auto. Qed.

Theorem C59_independent_refuted : ~ C59_full.
Proof.
  intros F. specialize (F [] ex_first [ex_second]). cbv in F. destruct F as [_ F]. discriminate.
Qed.

(** What is used instead: the signing key and the verification setting of the
    server constructed last; the lookups that were given last, by whichever
    server. *)
Theorem C59_settings_partial : forall before a after, let (sh, s) := construct a (construct_all before shared_initial) in let sh' := construct_all after sh in
  let l := (before ++ a :: after)%list in
  (exists l1 z, l = (l1 ++ [z])%list /\ sh_verify sh' = a_verify z /\ sh_sign sh' = Some (a_sign z)) /\
  last_given a_fp l (sh_fp sh') /\ last_given a_ven l (sh_ven sh') /\
  settings sh' s = mk_cfg (a_vtn a) (sh_ven sh') (sh_fp sh') (sh_verify sh') (a_types a) (a_handle a) /\ s_freq s = a_freq a.
Proof.
  assert (APP : forall l1 l2 sh, construct_all (l1 ++ l2) sh = construct_all l2 (construct_all l1 sh)) by (induction l1 as [|x l1 IH]; intros; [reflexivity|apply IH]).
  assert (LAST : forall A (f : args -> option A) (g : shared -> option A), (forall a sh, g (fst (construct a sh)) = match f a with Some v => Some v | None => g sh end) -> g shared_initial = None ->
     forall l, last_given f l (g (construct_all l shared_initial))).
  { intros A f g ST IN l. induction l as [|a l IH] using rev_ind; [left; split; [exact IN|intros a []]|].
    rewrite APP. change (construct_all [a] (construct_all l shared_initial)) with (fst (construct a (construct_all l shared_initial))). rewrite ST. destruct (f a) as [v|] eqn:E.
    - right. exists l, a, [], v. split; [reflexivity|]. split; [exact E|]. split; [reflexivity|]. intros b [].
    - destruct IH as [[H N]|(l1 & b & l2 & v & -> & B & H & N)].
      + left. split; [exact H|]. intros b I. apply in_app_iff in I as [I|[<-|[]]]; [now apply N|exact E].
      + right. exists l1, b, (l2 ++ [a])%list, v. split; [now rewrite <- app_assoc|]. split; [exact B|]. split; [exact H|]. intros c I. apply in_app_iff in I as [I|[<-|[]]]; [now apply N|exact E]. }
  intros before a after. cbv beta iota zeta delta [construct].
  set (sh := mk_shared _ _ _ _).
  assert (EQ : construct_all after sh = construct_all (before ++ a :: after) shared_initial) by (rewrite APP; reflexivity).
  rewrite EQ. split.
  - destruct (exists_last (l := before ++ a :: after) ltac:(destruct before; discriminate)) as (l1 & z & E). exists l1, z. split; [exact E|]. rewrite E, APP. split; reflexivity.
  - split; [apply LAST; reflexivity|]. split; [apply LAST; reflexivity|]. split; reflexivity.
Qed.

(** So a single server, and servers with the same settings for all that is
    shared (both lookups given), do have their own settings. *)
Theorem C59_same_settings_partial : forall before a after, (forall b, In b (before ++ after) -> a_verify b = a_verify a /\ a_sign b = a_sign a /\ a_fp b = a_fp a /\ a_ven b = a_ven a) ->
  let (sh, s) := construct a (construct_all before shared_initial) in let sh' := construct_all after sh in
  settings sh' s = own a /\ sh_sign sh' = Some (a_sign a).
Proof.
  intros before a after U. pose proof (C59_settings_partial before a after) as P. destruct (construct a (construct_all before shared_initial)) as [sh s]. cbv zeta in *.
  destruct P as ((l1 & z & E & V & S) & F & L & C & _). set (sh' := construct_all after sh) in *.
  assert (U' : forall b, In b (before ++ a :: after) -> a_verify b = a_verify a /\ a_sign b = a_sign a /\ a_fp b = a_fp a /\ a_ven b = a_ven a).
  { intros b I. apply in_app_iff in I as [I|[<-|I]]; [apply U, in_app_iff; now left|auto|apply U, in_app_iff; now right]. }
  assert (Z : In z (before ++ a :: after)) by (rewrite E; apply in_app_iff; right; now left). destruct (U' z Z) as (Z1 & Z2 & _).
  assert (G : forall A (f : args -> option A) x, (forall b, In b (before ++ a :: after) -> f b = f a) -> last_given f (before ++ a :: after) x -> x = f a).
  { intros A f x W [[-> N]|(m1 & b & m2 & v & E' & B & -> & _)]; [symmetry; apply N, in_app_iff; right; now left|]. rewrite <- B. apply W. rewrite E'. apply in_app_iff. right. now left. }
  rewrite C. rewrite (G _ a_fp _ (fun b I => proj1 (proj2 (proj2 (U' b I)))) F), (G _ a_ven _ (fun b I => proj2 (proj2 (proj2 (U' b I)))) L). rewrite V, Z1, S, Z2. split; reflexivity.
Qed.
Print Assumptions C59_independent_refuted.
Print Assumptions C59_settings_partial.
Print Assumptions C59_same_settings_partial.
