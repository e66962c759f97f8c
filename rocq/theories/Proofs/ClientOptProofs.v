(** The VEN's list of opts (C70). *)
From Coq Require Import ZArith String List Bool Lia Arith.
From Verif.Base Require Import Result Dict PyStr ListExtra.
From Verif.Model Require Import Objects Server Constructors ClientOpts.
From Verif.Spec Require Import OptSpec.
Import ListNotations.
Local Open Scope string_scope.
Local Open Scope Z_scope.

Lemma opt_eqb_eq a b : opt_eqb a b = true <-> a = b.
Proof.
  destruct a as [i x], b as [j y]. unfold opt_eqb. cbn [o_id o_rest]. rewrite andb_true_iff, scalar_eqb_eq, Nat.eqb_eq. split; [intros [-> ->]; reflexivity|]. intros E. injection E. auto.
Qed.
Lemma inb_in x l : inb x l = true <-> In x l.
Proof. unfold inb. rewrite existsb_exists. split; [intros (y & I & E); apply String.eqb_eq in E as ->; exact I|]. intros I. exists x. split; [exact I|apply String.eqb_refl]. Qed.
Lemma inb_not x l : inb x l = false <-> ~ In x l.
Proof. rewrite <- inb_in. destruct (inb x l); split; congruence. Qed.

Definition new_id (a : create_args) (g : string) : scalar := match ca_id a with Some i => if truthy_scalar i then i else SStr g | None => SStr g end.
Lemma new_id_names a g id : names a g id <-> id = new_id a g.
Proof.
  unfold names, new_id. destruct (ca_id a) as [i|].
  - destruct (truthy_scalar i) eqn:T; split.
    + intros [(j & E & _ & ->)|[H _]]; [congruence|]. rewrite (H i eq_refl) in T. discriminate.
    + intros ->. left. eauto.
    + intros [(j & E & T' & ->)|[_ ->]]; [|reflexivity]. injection E as <-. congruence.
    + intros ->. right. split; [|reflexivity]. intros j E. injection E as <-. exact T.
  - split; [intros [(j & E & _)|[_ ->]]; [discriminate|reflexivity]|]. intros ->. right. split; [discriminate|reflexivity].
Qed.
Lemma startswith_x m : startswith "x-" m = true <-> exists s, m = ("x-" ++ s)%string.
Proof. apply startswith_spec. Qed.
Lemma create_acceptable st a g now rest r : acceptable a ->
  create_opt st a g now rest r = (mk_st (opts st ++ [mk_opt (new_id a g) rest]) (match r with Ok _ => waiting st ++ [PCreate (mk_opt (new_id a g) rest)] | Raise _ => waiting st end)%list,
                                  match r with Ok _ => Sent | Raise e => Raised e end).
Proof.
  intros (T & R & M & E & G). unfold create_opt. fold (new_id a g). apply inb_in in T, R. fold OPT_values OPT_REASON_values in T, R. rewrite T, R. cbn [negb]. unfold make_opt. rewrite T, R. cbn [negb].
  replace (match ca_mrid a with Some m => negb (inb m SIGNAL_TARGET_MRID_values) && negb (startswith "x-" m) | None => false end) with false.
  2:{ symmetry. destruct (ca_mrid a) as [m|]; [|reflexivity]. destruct (M m eq_refl) as [I|I]; [apply inb_in in I; rewrite I; reflexivity|]. apply startswith_x in I. rewrite I. apply andb_false_r. }
  destruct (ca_targets a) as [ts|]; [|now contradiction G].
  destruct (ca_event a) as [e|], (ca_availability a); try (exfalso; destruct E as [E1 E2]; (discriminate (E1 eq_refl) || discriminate (E2 eq_refl))); cbn; destruct r; reflexivity.
Qed.
Lemma create_refused st a g now rest r : ~ acceptable a -> create_opt st a g now rest r = (st, Raised ValueError).
Proof.
  intros N. unfold create_opt. destruct (inb (ca_type a) OPT_values) eqn:T; cbn [negb]; [|reflexivity]. destruct (inb (ca_reason a) OPT_REASON_values) eqn:R; cbn [negb]; [|reflexivity].
  unfold make_opt. rewrite T, R. cbn [negb].
  destruct (match ca_mrid a with Some m => negb (inb m SIGNAL_TARGET_MRID_values) && negb (startswith "x-" m) | None => false end) eqn:M; [reflexivity|].
  assert (M' : forall m, ca_mrid a = Some m -> In m SIGNAL_TARGET_MRID_values \/ exists s, m = ("x-" ++ s)%string).
  { intros m E. rewrite E in M. apply andb_false_iff in M as [M|M]; apply negb_false_iff in M; [left; now apply inb_in|right; now apply startswith_x]. }
  apply inb_in in T, R.
  destruct (ca_event a) as [e|] eqn:E, (ca_availability a) eqn:V; try reflexivity; (destruct (ca_targets a) as [ts|] eqn:G; [|reflexivity]); exfalso; apply N;
    (split; [exact T|split; [exact R|split; [exact M'|split; [rewrite E, V; split; congruence|congruence]]]]).
Qed.

Lemma acceptable_dec a : acceptable a \/ ~ acceptable a.
Proof.
  destruct (create_opt initial a "" 0 0 (Ok tt)) as [st out] eqn:E. destruct out.
  - left. unfold create_opt in E.
    destruct (inb (ca_type a) OPT_values) eqn:T; cbn [negb] in E; [|discriminate]. destruct (inb (ca_reason a) OPT_REASON_values) eqn:R; cbn [negb] in E; [|discriminate].
    unfold make_opt in E. rewrite T, R in E. cbn [negb] in E.
    destruct (match ca_mrid a with Some m => negb (inb m SIGNAL_TARGET_MRID_values) && negb (startswith "x-" m) | None => false end) eqn:M; [discriminate|].
    assert (M' : forall m, ca_mrid a = Some m -> In m SIGNAL_TARGET_MRID_values \/ exists s, m = ("x-" ++ s)%string).
    { intros m E'. rewrite E' in M. apply andb_false_iff in M as [M|M]; apply negb_false_iff in M; [left; now apply inb_in|right; now apply startswith_x]. }
    apply inb_in in T, R. split; [exact T|split; [exact R|split; [exact M'|]]].
    destruct (ca_event a) as [e|], (ca_availability a); try discriminate; (destruct (ca_targets a) as [ts|]; [split; [split; congruence|discriminate]|discriminate]).
  - right. intros A. rewrite (create_acceptable _ _ _ _ _ _ A) in E. discriminate.
  - right. intros A. rewrite (create_acceptable _ _ _ _ _ _ A) in E. discriminate.
Qed.

Lemma remove_first_spec o l : match remove_first o l with
  | Some l' => exists a b, l = (a ++ o :: b)%list /\ l' = (a ++ b)%list /\ ~ In o a
  | None => ~ In o l
  end.
Proof.
  induction l as [|x l IH]; cbn [remove_first]; [intros []|]. destruct (opt_eqb x o) eqn:E.
  - apply opt_eqb_eq in E as ->. exists [], l. auto.
  - assert (N : x <> o) by (intros ->; rewrite (proj2 (opt_eqb_eq o o) eq_refl) in E; discriminate). destruct (remove_first o l) as [l'|]; cbn [option_map].
    + destruct IH as (a & b & -> & -> & I). exists (x :: a), b. split; [reflexivity|split; [reflexivity|]]. intros [H|H]; [congruence|contradiction].
    + intros [H|H]; [congruence|contradiction].
Qed.
Lemma occurrences_app o a b : occurrences o (a ++ b) = (occurrences o a + occurrences o b)%nat.
Proof. unfold occurrences. now rewrite filter_app, app_length. Qed.

(** Without acknowledged cancellations the list only grows. *)
Lemma unacknowledged_step st a st' out : (forall n r, a = Answer n r -> ~ acknowledged r) -> step st a = Some (st', out) ->
  forall l acts, made acts l -> exists l0, made (a :: acts) (l0 ++ l)%list /\ opts st' = (opts st ++ l0)%list.
Proof.
  intros U S l acts M. destruct a as [a g now rest r|id r|n r]; cbn [step] in S.
  - destruct (acceptable_dec a) as [A|A].
    + rewrite create_acceptable in S by exact A. injection S as <- _. exists [mk_opt (new_id a g) rest]. split; [|reflexivity]. constructor; [exact A|now apply new_id_names|exact M].
    + rewrite create_refused in S by exact A. injection S as <- _. exists []. rewrite app_nil_r. split; [now apply made_refused|reflexivity].
  - exists []. rewrite app_nil_r. split; [now constructor|]. unfold cancel_opt in S. destruct (find _ _); [destruct r|]; injection S as <- _; reflexivity.
  - exists []. rewrite app_nil_r. split; [now constructor|]. destruct (take n (waiting st)) as [[[o|o] w]|]; [|..|discriminate].
    + injection S as <- _. reflexivity.
    + destruct r as [| |[v|]]; cbn [cancelled] in S; try (injection S as <- _; reflexivity). exfalso. eapply (U n _ eq_refl). exists v. reflexivity.
Qed.
Lemma unacknowledged_run acts : forall st st' outs, unacknowledged acts -> run st acts = Some (st', outs) -> exists l, made acts l /\ opts st' = (opts st ++ l)%list.
Proof.
  induction acts as [|a acts IH]; intros st st' outs U R; cbn [run] in R.
  - injection R as <- _. exists []. split; [constructor|now rewrite app_nil_r].
  - destruct (step st a) as [[st1 out]|] eqn:S; [|discriminate]. destruct (run st1 acts) as [[st2 outs']|] eqn:R'; [|discriminate]. injection R as <- _.
    destruct (IH st1 st2 outs') as (l & M & E); [intros n r I; apply (U n r); now right|exact R'|].
    destruct (unacknowledged_step st a st1 out) with (l := l) (acts := acts) as (l0 & M0 & E0); [intros n r ->; apply (U n r); now left|exact S|exact M|].
    exists (l0 ++ l)%list. split; [exact M0|]. now rewrite E, E0, <- app_assoc.
Qed.
