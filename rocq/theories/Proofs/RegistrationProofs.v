From Coq Require Import ZArith String List Bool Lia.
From Verif.Base Require Import Result Dict PyStr ListExtra.
From Verif.Model Require Import VtnService Registration.
From Verif.Spec Require Import VtnServiceSpec RegistrationSpec.
From Verif.Proofs Require Import VtnServiceProofs.
Import ListNotations.
Local Open Scope string_scope.
Local Open Scope Z_scope.

Lemma usable_iff v : truthy v = true <-> usable v.
Proof.
  unfold usable. destruct v as [|[]|[| |]|[| |] n|[|]]; simpl; split; intros H; try discriminate; try reflexivity; try (repeat split; discriminate).
  - tauto.
  - destruct H as (_ & _ & _ & H & _). congruence.
  - destruct H as (_ & _ & H & _). congruence.
  - destruct H as (_ & _ & _ & _ & H). elim (H n). reflexivity.
  - destruct H as (_ & H & _). congruence.
Qed.
Lemma not_usable_iff v : truthy v = false <-> ~ usable v.
Proof. rewrite <- usable_iff. destruct (truthy v); split; congruence. Qed.
Lemma reg_value a : match an_reg a with Some r => if truthy r then r else SNone | None => SNone end = SNone \/
  exists r, an_reg a = Some r /\ usable r /\ match an_reg a with Some r => if truthy r then r else SNone | None => SNone end = r.
Proof. destruct (an_reg a) as [r|]; [|now left]. destruct (truthy r) eqn:T; [right; exists r; rewrite <- usable_iff; auto|now left]. Qed.

Lemma adopt_reg a s : v_reg (adopt a s) = match an_reg a with Some r => if truthy r then r else SNone | None => SNone end.
Proof.
  unfold adopt. set (reg := match an_reg a with Some r => if truthy r then r else SNone | None => SNone end).
  destruct (truthy reg); destruct (an_ven a) as [v|]; try destruct (truthy v); reflexivity.
Qed.
Lemma adopt_keeps a s : v_reports (adopt a s) = v_reports s /\ v_jobs (adopt a s) = v_jobs s /\ v_running (adopt a s) = v_running s /\ v_session (adopt a s) = v_session s.
Proof. unfold adopt. destruct (truthy _); destruct (an_ven a) as [v|]; try destruct (truthy v); auto. Qed.
Lemma register_cases o s s' r : register o s = (s', r) ->
  (exists a, o = Answered a /\ an_code a = Some (SInt 200) /\ s' = adopt a (connected s) /\ r = Ok tt) \/ (fails o /\ s' = connected s).
Proof.
  unfold register. intros H. destruct o as [| |a].
  - injection H as <- <-. right. split; [intros a; discriminate|reflexivity].
  - injection H as <- <-. right. split; [intros a; discriminate|reflexivity].
  - destruct (an_code a) as [c|] eqn:C.
    + destruct (scalar_eqb c (SInt 200)) eqn:Q.
      * apply scalar_eqb_eq in Q. subst. injection H as <- <-. left. exists a. auto.
      * apply scalar_eqb_neq in Q. injection H as <- <-. right. split; [|reflexivity]. intros a' E. injection E as <-. congruence.
    + injection H as <- <-. right. split; [|reflexivity]. intros a' E. injection E as <-. congruence.
Qed.
Lemma register_keeps o s s' r : register o s = (s', r) -> v_reports s' = v_reports s /\ v_jobs s' = v_jobs s /\ v_running s' = v_running s.
Proof.
  intros H. destruct (register_cases _ _ _ _ H) as [(a & _ & _ & -> & _)|[_ ->]]; [|auto]. destruct (adopt_keeps a (connected s)) as (A & B & C & _). rewrite A, B, C. auto.
Qed.
Lemma register_reg o s s' r : register o s = (s', r) -> v_reg s' = v_reg s \/ v_reg s' = SNone \/ exists a, o = Answered a /\ an_reg a = Some (v_reg s').
Proof.
  intros H. destruct (register_cases _ _ _ _ H) as [(a & -> & _ & -> & _)|[_ ->]]; [|now left]. right. rewrite adopt_reg. destruct (reg_value a) as [E|(x & A & _ & E)]; [now left|]. right. exists a. rewrite E. auto.
Qed.

(** ** Once the reports are forgotten *)
Definition not_polling (s : ven) : Prop := forall f, ~ In (JPoll f) (v_jobs s).

Lemma register_reports_None o s : v_reports s = None -> register_reports o s = (s, Raise TypeError).
Proof. intros H. unfold register_reports. now rewrite H. Qed.

Lemma reregister_None o reports sync s s' r : v_reports s = None -> reregister o reports sync s = (s', r) ->
  v_reports s' = None /\ v_jobs s' = v_jobs s /\ (truthy (v_reg s') = true -> exists e, r = Raise e).
Proof.
  intros N H. unfold reregister in H. destruct (register o s) as [s1 [[]|e]] eqn:R; destruct (register_keeps _ _ _ _ R) as (K1 & K2 & K3).
  - destruct (truthy (v_reg s1)) eqn:T; cbn [negb] in H.
    + rewrite register_reports_None in H by congruence. injection H as <- <-. split; [congruence|]. split; [exact K2|]. eauto.
    + unfold stop in H. injection H as <- <-. cbn [v_reports v_jobs with_running v_reg]. split; [congruence|]. split; [exact K2|]. congruence.
  - injection H as <- <-. split; [congruence|]. split; [exact K2|]. eauto.
Qed.

Lemma in_app_report f js (ns : list nat) : In (JPoll f) (js ++ map JReport ns) <-> In (JPoll f) js.
Proof. rewrite in_app_iff, in_map_iff. split; [|now left]. intros [H|(x & H & _)]; [exact H|discriminate]. Qed.
Lemma drop_reports_in j keep js : is_report j = false -> (In j (drop_reports keep js) <-> In j js).
Proof.
  intros N. revert keep. induction js as [|x js IH]; intros keep; [reflexivity|]. cbn [drop_reports]. destruct (is_report x) eqn:R.
  - destruct keep as [|[] ks]; cbn [In]; rewrite IH; [reflexivity|reflexivity|]. split; [now right|]. intros [->|H]; [congruence|exact H].
  - cbn [In]. rewrite IH. reflexivity.
Qed.

Lemma poll_None p s s' r : v_reports s = None -> poll p s = (s', r) ->
  v_reports s' = None /\ (forall f, In (JPoll f) (v_jobs s') -> In (JPoll f) (v_jobs s)).
Proof.
  intros N H. unfold poll in H. destruct p as [| |o reports sync|reg o|keep added x].
  - injection H as <- <-. auto.
  - injection H as <- <-. auto.
  - apply reregister_None in H as (A & B & _); [|exact N]. split; [exact A|]. intros f I. now rewrite B in I.
  - unfold on_cancel in H. cbn [connected v_reg] in H. destruct (v_reg s); [injection H as <- <-; auto|..];
      (destruct reg as [r0|]; [|injection H as <- <-; auto]; destruct (scalar_eqb _ r0); destruct o; injection H as <- <-; split; try exact N; try reflexivity; intros f I; try exact I; destruct I).
  - injection H as <- <-. split; [exact N|]. intros f I. cbn [with_jobs v_jobs] in I. apply in_app_report in I. now apply drop_reports_in in I.
Qed.

Lemma step_None x s s' r : v_reports s = None -> do_step x s = (s', r) -> v_reports s' = None /\ (forall f, In (JPoll f) (v_jobs s') -> In (JPoll f) (v_jobs s)).
Proof.
  intros N H. destruct x as [q o reports sync first|o|o reports sync|o|p|]; cbn [do_step] in H.
  - unfold run in H. assert (G : forall s0, v_reports s0 = None -> v_jobs s0 = v_jobs s ->
      (match register o s0 with
       | (s, Raise e) => (s, Raise e)
       | (s, Ok _) => if negb (truthy (v_reg s)) then stop s
         else match register_reports reports s with
           | (s, Raise e) => (s, Raise e)
           | (s, Ok _) => match sync with Raise e => (s, Raise e) | Ok _ => match poll first s with (s, Raise e) => (s, Raise e) | (s, Ok _) => start s end end
           end
       end) = (s', r) -> v_reports s' = None /\ (forall f, In (JPoll f) (v_jobs s') -> In (JPoll f) (v_jobs s))).
    { intros s0 N0 J0 H0. destruct (register o s0) as [s1 [[]|e]] eqn:R; destruct (register_keeps _ _ _ _ R) as (K1 & K2 & K3).
      - destruct (truthy (v_reg s1)) eqn:T; cbn [negb] in H0.
        + rewrite register_reports_None in H0 by congruence. injection H0 as <- <-. rewrite K2, J0. split; [congruence|auto].
        + unfold stop in H0. injection H0 as <- <-. cbn [v_reports v_jobs with_running]. rewrite K2, J0. split; [congruence|auto].
      - injection H0 as <- <-. rewrite K2, J0. split; [congruence|auto]. }
    destruct q as [| |a].
    + now apply (G (connected s)) in H.
    + injection H as <- <-. auto.
    + revert H. apply G; destruct (an_reg a); auto.
  - destruct (register_keeps _ _ _ _ H) as (A & B & _). rewrite A, B. auto.
  - apply reregister_None in H as (A & B & _); [|exact N]. rewrite B. auto.
  - unfold cancel in H. destruct (v_reg s); [injection H as <- <-; auto|..];
      (destruct o as [| |a]; [injection H as <- <-; auto|injection H as <- <-; auto|]; destruct (String.eqb _ _); [|injection H as <- <-; auto]; destruct (an_code a) as [c|]; [|injection H as <- <-; auto];
       destruct (scalar_eqb c (SInt 200)); injection H as <- <-; split; auto; intros f []).
  - eapply poll_None; eassumption.
  - unfold stop in H. injection H as <- <-. auto.
Qed.
Lemma steps_None xs s : v_reports s = None -> v_reports (do_steps xs s) = None /\ (forall f, In (JPoll f) (v_jobs (do_steps xs s)) -> In (JPoll f) (v_jobs s)).
Proof.
  revert s. induction xs as [|x xs IH]; intros s N; cbn [do_steps fold_left]; [auto|].
  destruct (do_step x s) as [s1 r] eqn:E. cbn [fst]. destruct (step_None _ _ _ _ N E) as [A B]. destruct (IH s1 A) as [C D]. split; [exact C|]. intros f I. apply B, D, I.
Qed.

(** ** What ends a registration *)
Lemma cancel_confirmed o s : v_reg s <> SNone -> confirms o -> cancel o s = (forgotten (with_reg SNone (connected s)), Ok tt).
Proof.
  intros N (a & -> & T & C). unfold cancel. destruct (v_reg s); [congruence|..]; cbn [an_type an_code]; rewrite T, C; reflexivity.
Qed.
Lemma cancel_unconfirmed o s : ~ confirms o -> let s' := fst (cancel o s) in v_reg s' = v_reg s /\ v_reports s' = v_reports s /\ v_jobs s' = v_jobs s.
Proof.
  intros N. unfold cancel. destruct (v_reg s) eqn:R; [cbn [fst]; auto|..];
    (destruct o as [| |a]; [cbn [fst connected v_reg v_reports v_jobs]; auto|cbn [fst connected v_reg v_reports v_jobs]; auto|];
     destruct (String.eqb (an_type a) _) eqn:T; [|cbn [fst connected v_reg v_reports v_jobs]; auto]; apply String.eqb_eq in T;
     destruct (an_code a) as [c|] eqn:C; [|cbn [fst connected v_reg v_reports v_jobs]; auto];
     destruct (scalar_eqb c (SInt 200)) eqn:Q; [|cbn [fst connected v_reg v_reports v_jobs]; auto]; apply scalar_eqb_eq in Q; subst c; elim N; exists a; auto).
Qed.
Lemma on_cancel_ours o s : v_reg s <> SNone -> o <> Empty -> on_cancel (Some (v_reg s)) o s = (with_reg SNone (connected (forgotten s)), Ok tt).
Proof. intros N E. unfold on_cancel. rewrite scalar_eqb_refl. destruct (v_reg s); [congruence|..]; destruct o; congruence || reflexivity. Qed.
Lemma on_cancel_other reg o s : reg <> Some (v_reg s) -> let s' := fst (on_cancel reg o s) in v_reg s' = v_reg s /\ v_reports s' = v_reports s /\ v_jobs s' = v_jobs s.
Proof.
  intros N. unfold on_cancel. destruct (v_reg s) eqn:R; [cbn [fst]; auto|..];
    (destruct reg as [r|]; [|cbn [fst]; auto]; match goal with |- context [scalar_eqb ?x r] => destruct (scalar_eqb x r) eqn:Q end; [apply scalar_eqb_eq in Q; congruence|]; cbn [fst connected v_reg v_reports v_jobs]; auto).
Qed.
Lemma ended_state x s : ends_registration x s -> let s' := fst (do_step x s) in v_reg s' = SNone /\ v_reports s' = None /\ v_jobs s' = [].
Proof.
  intros [(o & -> & N & C)|(o & -> & N & E)]; cbn [do_step poll].
  - rewrite (cancel_confirmed _ _ N C). auto.
  - change (v_reg s) with (v_reg (connected s)) in N. change (v_reg s) with (v_reg (connected s)). rewrite (on_cancel_ours _ _ N E). auto.
Qed.

(** ** Where a registration comes from *)
Lemma on_cancel_reg reg o s s' r : on_cancel reg o s = (s', r) -> v_reg s' = v_reg s \/ v_reg s' = SNone.
Proof.
  unfold on_cancel. intros H. destruct (v_reg s) eqn:R; [injection H as <- <-; auto|..];
    (destruct reg as [r0|]; [|injection H as <- <-; auto]; destruct (scalar_eqb _ r0); destruct o; injection H as <- <-; auto).
Qed.
Definition from (os : list outcome) (s s' : ven) : Prop := v_reg s' = v_reg s \/ v_reg s' = SNone \/ exists a, In (Answered a) os /\ an_reg a = Some (v_reg s').
Lemma from_register o s s' r : register o s = (s', r) -> from [o] s s'.
Proof. intros H. destruct (register_reg _ _ _ _ H) as [E|[E|(a & -> & E)]]; [now left|right; now left|]. right. right. exists a. split; [now left|exact E]. Qed.
Lemma from_trans os1 os2 s1 s2 s3 : from os1 s1 s2 -> from os2 s2 s3 -> from (os1 ++ os2) s1 s3.
Proof.
  intros A [E|[E|(a & I & E)]].
  - destruct A as [F|[F|(a & I & F)]]; [left; congruence|right; left; congruence|]. right. right. exists a. split; [apply in_app_iff; now left|congruence].
  - right. now left.
  - right. right. exists a. split; [apply in_app_iff; now right|exact E].
Qed.
Lemma from_same os s s' : v_reg s' = v_reg s -> from os s s'.
Proof. now left. Qed.
Lemma from_incl os os' s s' : (forall x, In x os -> In x os') -> from os s s' -> from os' s s'.
Proof. intros H [E|[E|(a & I & E)]]; [now left|right; now left|right; right; eauto]. Qed.
Lemma from_reregister o reports sync s s' r : reregister o reports sync s = (s', r) -> from [o] s s'.
Proof.
  unfold reregister. intros H. destruct (register o s) as [s1 [[]|e]] eqn:R; pose proof (from_register _ _ _ _ R) as F; [|now injection H as <- <-].
  assert (E : v_reg s' = v_reg s1).
  { destruct (negb _); [unfold stop in H; now injection H as <- <-|]. unfold register_reports in H. destruct (v_reports s1); [|now injection H as <- <-]. destruct reports; now injection H as <- <-. }
  unfold from in *. rewrite E. exact F.
Qed.
Lemma from_poll p s s' r : poll p s = (s', r) -> from (polled_outcomes p) s s'.
Proof.
  unfold poll. intros H. destruct p as [| |o reports sync|reg o|keep added x]; try (injection H as <- <-; now left).
  - apply from_reregister in H. exact H.
  - apply on_cancel_reg in H. destruct H as [H|H]; [now left|right; now left].
Qed.
Lemma from_start s s' r : start s = (s', r) -> v_reg s' = v_reg s.
Proof. unfold start. destruct (v_freq s) as [f|]; [|intros H; now injection H as <- <-]. destruct (f >? day); cbn [v_running with_jobs with_freq]; destruct (v_running s); intros H; now injection H as <- <-. Qed.
Lemma from_step x s s' r : do_step x s = (s', r) -> from (outcomes x) s s'.
Proof.
  destruct x as [q o reports sync first|o|o reports sync|o|p|]; cbn [do_step outcomes]; intros H.
  - unfold run in H. set (s0 := match q with Answered a => match an_reg a with Some r => with_reg r (connected s) | None => connected s end | _ => connected s end) in H.
    assert (F0 : from [q] s s0).
    { unfold s0. destruct q as [| |a]; [now left|now left|]. destruct (an_reg a) as [r0|] eqn:E; [|now left]. right. right. exists a. split; [now left|]. exact E. }
    assert (H' : (s', r) = (connected s, Raise TypeError) \/
      (match register o s0 with
       | (s, Raise e) => (s, Raise e)
       | (s, Ok _) => if negb (truthy (v_reg s)) then stop s
         else match register_reports reports s with
           | (s, Raise e) => (s, Raise e)
           | (s, Ok _) => match sync with Raise e => (s, Raise e) | Ok _ => match poll first s with (s, Raise e) => (s, Raise e) | (s, Ok _) => start s end end
           end
       end) = (s', r)) by (unfold s0 in *; destruct q; auto).
    clear H. destruct H' as [H|H]; [injection H as -> ->; now left|]. clearbody s0.
    change (from ([q] ++ [o] ++ polled_outcomes first) s s'). apply (from_trans _ _ _ s0); [exact F0|]. clear F0.
    destruct (register o s0) as [s1 [[]|e]] eqn:R; pose proof (from_register _ _ _ _ R) as F; [|injection H as <- <-; apply (from_incl [o]); [intros x I; apply in_app_iff; now left|exact F]].
    apply (from_trans _ _ _ s1 _ F). clear F R. destruct (negb _); [unfold stop in H; injection H as <- <-; now left|].
    destruct (register_reports reports s1) as [s2 [[]|e]] eqn:RR; (assert (E2 : v_reg s2 = v_reg s1) by (unfold register_reports in RR; destruct (v_reports s1); [|injection RR as <-; reflexivity]; destruct reports; injection RR as <-; reflexivity)).
    2: { injection H as <- <-. now left. }
    destruct sync as [|e]; [|injection H as <- <-; now left]. destruct (poll first s2) as [s3 [[]|e]] eqn:P; pose proof (from_poll _ _ _ _ P) as F.
    + apply from_start in H. unfold from in *. rewrite H. rewrite E2 in F. exact F.
    + injection H as <- <-. unfold from in *. rewrite E2 in F. exact F.
  - eapply from_register; eassumption.
  - eapply from_reregister; eassumption.
  - unfold cancel in H. destruct (v_reg s) eqn:R; [injection H as <- <-; now left|..];
      (destruct o as [| |a]; [injection H as <- <-; now left|injection H as <- <-; now left|]; destruct (String.eqb _ _); [|injection H as <- <-; now left]; destruct (an_code a) as [c|]; [|injection H as <- <-; now left];
       destruct (scalar_eqb c (SInt 200)); injection H as <- <-; [right; now left|now left]).
  - eapply from_poll; eassumption.
  - unfold stop in H. injection H as <- <-. now left.
Qed.
Lemma from_steps xs s : v_reg (do_steps xs s) = v_reg s \/ v_reg (do_steps xs s) = SNone \/ given xs (v_reg (do_steps xs s)).
Proof.
  revert s. induction xs as [|x xs IH]; intros s; cbn [do_steps fold_left]; [now left|].
  destruct (do_step x s) as [s1 r] eqn:E. cbn [fst]. fold (do_steps xs s1). pose proof (from_step _ _ _ _ E) as F.
  destruct (IH s1) as [H|[H|(y & a & I & J & K)]].
  - destruct F as [G|[G|(a & I & G)]]; [left; congruence|right; left; congruence|]. right. right. exists x, a. split; [now left|]. split; [exact I|congruence].
  - right. now left.
  - right. right. exists y, a. split; [now right|]. auto.
Qed.

(** ** The poll job *)
Lemma reregister_jobs o reports sync s s' r f : reregister o reports sync s = (s', r) -> (In (JPoll f) (v_jobs s') <-> In (JPoll f) (v_jobs s)).
Proof.
  unfold reregister. intros H. destruct (register o s) as [s1 [[]|e]] eqn:R; destruct (register_keeps _ _ _ _ R) as (K1 & K2 & K3); [|injection H as <- <-; now rewrite K2].
  rewrite <- K2. destruct (negb _); [unfold stop in H; injection H as <- <-; reflexivity|]. unfold register_reports in H. destruct (v_reports s1); [|injection H as <- <-; reflexivity].
  destruct reports; injection H as <- <-; [|reflexivity]. cbn [with_jobs v_jobs]. apply in_app_report.
Qed.
Lemma step_jobs x s s' r f : ~ runs x -> do_step x s = (s', r) -> In (JPoll f) (v_jobs s') -> In (JPoll f) (v_jobs s).
Proof.
  intros N H I. destruct x as [q o reports sync first|o|o reports sync|o|p|]; cbn [do_step] in H.
  - elim N. do 5 eexists. reflexivity.
  - destruct (register_keeps _ _ _ _ H) as (_ & B & _). now rewrite B in I.
  - now apply (reregister_jobs _ _ _ _ _ _ f H).
  - unfold cancel in H. destruct (v_reg s); [injection H as <- <-; auto|..];
      (destruct o as [| |a]; [injection H as <- <-; auto|injection H as <- <-; auto|]; destruct (String.eqb _ _); [|injection H as <- <-; auto]; destruct (an_code a) as [c|]; [|injection H as <- <-; auto];
       destruct (scalar_eqb c (SInt 200)); injection H as <- <-; auto; destruct I).
  - unfold poll in H. destruct p as [| |o reports sync|reg o|keep added x]; try (injection H as <- <-; exact I).
    + now apply (reregister_jobs _ _ _ _ _ _ f H).
    + unfold on_cancel in H. cbn [connected v_reg] in H. destruct (v_reg s); [injection H as <- <-; auto|..];
        (destruct reg as [r0|]; [|injection H as <- <-; auto]; destruct (scalar_eqb _ r0); destruct o; injection H as <- <-; auto; destruct I).
    + injection H as <- <-. cbn [with_jobs v_jobs] in I. apply in_app_report in I. now apply drop_reports_in in I.
  - unfold stop in H. injection H as <- <-. exact I.
Qed.
Lemma steps_jobs xs s f : (forall x, In x xs -> ~ runs x) -> In (JPoll f) (v_jobs (do_steps xs s)) -> In (JPoll f) (v_jobs s).
Proof.
  revert s. induction xs as [|x xs IH]; intros s N I; cbn [do_steps fold_left] in I; [exact I|].
  destruct (do_step x s) as [s1 r] eqn:E. cbn [fst] in I. apply (step_jobs x s s1 r); [apply N; now left|exact E|]. apply IH; [intros y J; apply N; now right|exact I].
Qed.
