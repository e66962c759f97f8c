From Coq Require Import ZArith String List Bool Ascii Lia Sorting.Sorted.
From Verif.Base Require Import Result Dict PyStr ListExtra.
From Verif.Model Require Import Objects EventTime Server ClientEvents.
From Verif.Spec Require Import EventSpec ClientEventSpec.
From Verif.Proofs Require Import EventTimeProofs.
Import ListNotations.
Local Open Scope string_scope.
Local Open Scope Z_scope.

Lemma status_eqb_iff a b : status_eqb a b = true <-> a = b.
Proof. unfold status_eqb. destruct (status_eq_dec a b); split; congruence. Qed.

Lemma completed_iff local t p : status_eqb (fst (determine_event_status local t p)) Completed = true <-> completed_at local t p.
Proof.
  rewrite status_eqb_iff. pose proof (determine_implied local t p) as I. unfold completed_at. split.
  - intros E. rewrite E in I. exists (aware_start local p). split; [|exact I]. unfold starts_at, aware_start. now destruct (ap_start p).
  - intros (s & S & J). assert (s = aware_start local p) by (unfold starts_at, aware_start in *; now destruct (ap_start p)). subst s. eapply implied_fun; eassumption.
Qed.

(** ** Chores *)
Lemma remove_nth_app {A} (a : list A) x b : remove_nth (length a) (a ++ x :: b) = (a ++ b)%list.
Proof. induction a; simpl; [reflexivity|]. now rewrite IHa. Qed.

Fixpoint keep_from {A} (f : nat -> A -> bool) (i : nat) (l : list A) : list A :=
  match l with [] => [] | x :: r => if f i x then x :: keep_from f (S i) r else keep_from f (S i) r end.

Lemma keep_from_app {A} (f : nat -> A -> bool) i a b : keep_from f i (a ++ b) = (keep_from f i a ++ keep_from f (i + length a) b)%list.
Proof.
  revert i. induction a as [|x a IH]; intros i; cbn [keep_from app length]; [now rewrite Nat.add_0_r|].
  rewrite IH. replace (S i + length a)%nat with (i + S (length a))%nat by lia. now destruct (f i x).
Qed.

Lemma cleanup_keep local clock l : forall rest, cleanup_from local clock (length l) (l ++ rest) = (keep_from (fun i e => negb (irrelevant local (clock i) e)) 0 l ++ rest)%list.
Proof.
  induction l as [|x l IH] using rev_ind; intros rest; [reflexivity|]. rewrite app_length. cbn [length]. rewrite Nat.add_1_r. cbn [cleanup_from].
  rewrite <- app_assoc. cbn [app]. rewrite nth_error_app2, Nat.sub_diag by lia. cbn [nth_error]. rewrite keep_from_app. cbn [keep_from Nat.add].
  destruct (irrelevant local (clock (length l)) x); cbn [negb].
  - rewrite remove_nth_app, app_nil_r. apply IH.
  - rewrite (IH (x :: rest)), <- app_assoc. reflexivity.
Qed.

Lemma event_cleanup_keep local clock l : event_cleanup local clock l = keep_from (fun i e => negb (irrelevant local (clock i) e)) 0 l.
Proof. unfold event_cleanup. pose proof (cleanup_keep local clock l []) as H. now rewrite !app_nil_r in H. Qed.

Lemma keep_those {A} (f : nat -> A -> bool) (P : nat -> A -> Prop) l : (forall i x, f i x = true <-> P i x) -> forall i, exists r, those P i l r /\ keep_from f i l = map snd r.
Proof.
  intros F. induction l as [|x l IH]; intros i; [exists []; split; [constructor|reflexivity]|]. destruct (IH (S i)) as (r & T & E). cbn [keep_from].
  destruct (f i x) eqn:X.
  - exists ((i, x) :: r). split; [constructor; [now apply F|exact T]|]. simpl. now f_equal.
  - exists r. split; [constructor; [intros p; apply F in p; congruence|exact T]|exact E].
Qed.

Lemma irrelevant_iff local t e : irrelevant local t e = true <-> ev_status e = Cancelled \/ completed_at local t (ev_period e).
Proof. unfold irrelevant. rewrite orb_true_iff, status_eqb_iff, completed_iff. reflexivity. Qed.

Lemma keep_from_sub {A} (f : nat -> A -> bool) l : forall i x, In x (keep_from f i l) -> In x l.
Proof. induction l as [|y l IH]; intros i x; cbn [keep_from]; [tauto|]. destruct (f i y); simpl; intuition eauto. Qed.
Lemma keep_from_in {A} (f : nat -> A -> bool) l x : (forall i, f i x = true) -> forall i, In x l -> In x (keep_from f i l).
Proof.
  intros F. induction l as [|y l IH]; intros i I; cbn [keep_from]; [destruct I|]. destruct I as [<-|I]; [rewrite F; now left|]. destruct (f i y); [right|]; auto.
Qed.
Lemma keep_from_nodup {A B} (g : A -> B) (f : nat -> A -> bool) l : forall i, NoDup (map g l) -> NoDup (map g (keep_from f i l)).
Proof.
  induction l as [|y l IH]; intros i N; cbn [keep_from]; [constructor|]. inversion N; subst. destruct (f i y); [|auto]. cbn [map]. constructor; [|auto].
  intros I. apply in_map_iff in I as (z & E & I). apply keep_from_sub in I. apply H1. rewrite <- E. now apply in_map.
Qed.

Definition logged_status (local : Z -> Z) (t : Z) (e : event) : event :=
  if status_eqb (ev_status e) Cancelled then e
  else let s := fst (determine_event_status local t (ev_period e)) in if status_eqb s (ev_status e) then e else set_status s e.
Lemma logged_same local t e : ev_id (logged_status local t e) = ev_id e /\ ev_mod (logged_status local t e) = ev_mod e /\ ev_period (logged_status local t e) = ev_period e /\
  (ev_status (logged_status local t e) = Cancelled <-> ev_status e = Cancelled).
Proof.
  unfold logged_status. destruct (status_eqb (ev_status e) Cancelled) eqn:C; [repeat (split; [reflexivity|]); reflexivity|]. cbv zeta.
  assert (NC : ev_status e <> Cancelled) by (intros E; apply (status_eqb_iff _ Cancelled) in E; rewrite E in C; discriminate).
  destruct (status_eqb (fst (determine_event_status local t (ev_period e))) (ev_status e)) eqn:D; [repeat (split; [reflexivity|]); reflexivity|]. split; [reflexivity|]. split; [reflexivity|]. split; [reflexivity|].
  split; [|intros E; contradiction]. intros E. change (ev_status (set_status ?s ?x)) with s in E.
  pose proof (determine_implied local t (ev_period e)) as I. change (fst (determine_event_status local t (ev_period e)) = Cancelled) in E. rewrite E in I. inversion I.
Qed.

Lemma status_log_nth local clock l : forall i n, nth_error (status_log_from local clock i l) n = option_map (logged_status local (clock (i + n)%nat)) (nth_error l n).
Proof.
  induction l as [|e l IH]; intros i [|n]; try reflexivity.
  - cbn [status_log_from nth_error option_map]. rewrite Nat.add_0_r. reflexivity.
  - cbn [status_log_from nth_error]. rewrite IH. now replace (S i + n)%nat with (i + S n)%nat by lia.
Qed.
Lemma status_log_ids local clock l : forall i, map ev_id (status_log_from local clock i l) = map ev_id l.
Proof. induction l as [|e l IH]; intros i; [reflexivity|]. cbn [status_log_from map]. rewrite IH. f_equal. exact (proj1 (logged_same local (clock i) e)). Qed.

(** ** What chores keep *)
Lemma chore_one_copy local c s : one_copy s -> one_copy (do_chore local c s).
Proof.
  unfold one_copy. destruct c; simpl.
  - rewrite event_cleanup_keep. apply keep_from_nodup.
  - unfold event_status_log. now rewrite status_log_ids.
Qed.
Lemma chores_one_copy local cs : forall s, one_copy s -> one_copy (do_chores local cs s).
Proof. induction cs as [|c cs IH]; intros s H; [exact H|]. apply IH. now apply chore_one_copy. Qed.
Lemma chore_responded local c s : vs_responded (do_chore local c s) = vs_responded s.
Proof. now destruct c. Qed.
Lemma chores_responded local cs : forall s, vs_responded (do_chores local cs s) = vs_responded s.
Proof. induction cs as [|c cs IH]; intros s; [reflexivity|]. unfold do_chores in *. cbn [fold_left]. rewrite IH. apply chore_responded. Qed.
(** Nothing is added: every remembered id and number was there. *)
Lemma chore_sub local c s r : In r (vs_received (do_chore local c s)) -> exists r', In r' (vs_received s) /\ ev_id r' = ev_id r /\ ev_mod r' = ev_mod r.
Proof.
  destruct c; simpl.
  - rewrite event_cleanup_keep. intros I. apply keep_from_sub in I. eauto.
  - intros I. apply In_nth_error in I as [n N]. unfold event_status_log in N. rewrite status_log_nth in N. destruct (nth_error (vs_received s) n) as [r'|] eqn:E; [|discriminate].
    injection N as <-. exists r'. split; [eapply nth_error_In; exact E|]. destruct (logged_same local (clock (0 + n)%nat) r') as (A & B & _). auto.
Qed.
Lemma chores_sub local cs : forall s r, In r (vs_received (do_chores local cs s)) -> exists r', In r' (vs_received s) /\ ev_id r' = ev_id r /\ ev_mod r' = ev_mod r.
Proof.
  induction cs as [|c cs IH]; intros s r I; [eauto|]. destruct (IH _ _ I) as (r1 & I1 & A & B). destruct (chore_sub _ _ _ _ I1) as (r2 & I2 & C & D). exists r2. split; [exact I2|]. split; congruence.
Qed.
Lemma chore_settled local c s id n p v : before_end local p c -> settled id n p v s -> settled id n p v (do_chore local c s).
Proof.
  intros B [(r & I & A1 & A2 & A3 & A4) G]. split; [|now rewrite chore_responded]. destruct c; simpl in *.
  - exists r. split; [|auto]. rewrite event_cleanup_keep. apply keep_from_in; [|exact I]. intros i. apply negb_true_iff. apply not_true_iff_false. intros H.
    apply irrelevant_iff in H as [H|H]; [contradiction|]. rewrite A3 in H. elim (B i H).
  - apply In_nth_error in I as [k N]. exists (logged_status local (clock k) r). destruct (logged_same local (clock k) r) as (B1 & B2 & B3 & B4).
    split; [|rewrite B1, B2, B3; split; [exact A1|]; split; [exact A2|]; split; [exact A3|]; intros H; apply B4 in H; contradiction].
    eapply nth_error_In with (n := k). unfold event_status_log. rewrite status_log_nth, N. reflexivity.
Qed.
Lemma chores_settled local cs id n p v : Forall (before_end local p) cs -> forall s, settled id n p v s -> settled id n p v (do_chores local cs s).
Proof. intros F. induction F as [|c cs B F IH]; intros s S; [exact S|]. apply IH. now apply chore_settled. Qed.

(** ** One event *)
Lemma pop_first_other id l r : In r l -> ev_id r <> id -> In r (pop_first (same_id id) l).
Proof.
  induction l as [|x l IH]; intros I N; [destruct I|]. cbn [pop_first]. destruct (same_id id x) eqn:E.
  - destruct I as [<-|I]; [|exact I]. unfold same_id in E. apply scalar_eqb_eq in E. contradiction.
  - destruct I as [<-|I]; [now left|right; auto].
Qed.
Lemma pop_first_sub id l r : In r (pop_first (same_id id) l) -> In r l.
Proof. induction l as [|x l IH]; cbn [pop_first]; [tauto|]. destruct (same_id id x); simpl; tauto. Qed.
Lemma pop_first_gone id l r : NoDup (map ev_id l) -> In r (pop_first (same_id id) l) -> ev_id r <> id.
Proof.
  induction l as [|x l IH]; intros N; cbn [pop_first]; [tauto|]. inversion N; subst. destruct (same_id id x) eqn:E.
  - unfold same_id in E. apply scalar_eqb_eq in E. intros I X. apply H1. rewrite E, <- X. now apply in_map.
  - unfold same_id in E. apply scalar_eqb_neq in E. intros [<-|I]; [exact E|auto].
Qed.
Lemma pop_first_nodup id l : NoDup (map ev_id l) -> NoDup (map ev_id (pop_first (same_id id) l)).
Proof.
  induction l as [|x l IH]; intros N; cbn [pop_first]; [constructor|]. inversion N; subst. destruct (same_id id x); [assumption|]. cbn [map]. constructor; [|auto].
  intros I. apply in_map_iff in I as (y & E & I). apply pop_first_sub in I. apply H1. rewrite <- E. now apply in_map.
Qed.
Lemma nodup_snoc {A B} (g : A -> B) l x : NoDup (map g l) -> (forall r, In r l -> g r <> g x) -> NoDup (map g (l ++ [x])).
Proof.
  intros N H. rewrite map_app. simpl. induction l as [|y l IH]; simpl; [constructor; [intros []|constructor]|]. inversion N; subst. constructor.
  - intros I. apply in_app_iff in I as [I|[I|[]]]; [contradiction|]. elim (H y (or_introl eq_refl)). congruence.
  - apply IH; [assumption|]. intros r I. apply H. now right.
Qed.

Definition final (e : event) : Prop := ev_status e = Completed \/ ev_status e = Cancelled.
Lemma final_dec e : {final e} + {~ final e}.
Proof. unfold final. destruct (ev_status e); ((left; now left) || (left; now right) || (right; intros [H|H]; discriminate)). Qed.

(** The state after event [e] was answered with [v]. *)
Definition recorded (e : event) (v : scalar) (s s' : vstate) : Prop :=
  vs_received s' = vs_received s /\
  (forall id, id <> ev_id e -> get scalar_eqb id (vs_responded s') = get scalar_eqb id (vs_responded s)) /\
  (final e -> mem scalar_eqb (ev_id e) (vs_responded s) = true -> NoDup (map fst (vs_responded s)) -> get scalar_eqb (ev_id e) (vs_responded s') = None) /\
  (~ final e \/ mem scalar_eqb (ev_id e) (vs_responded s) = false -> get scalar_eqb (ev_id e) (vs_responded s') = Some v) /\
  (NoDup (map fst (vs_responded s)) -> NoDup (map fst (vs_responded s'))).

Lemma record_spec e v s :
  recorded e v s (if (match ev_status e with Completed | Cancelled => true | _ => false end) && mem scalar_eqb (ev_id e) (vs_responded s)
     then set_responded (del scalar_eqb (ev_id e) (vs_responded s)) s
     else set_responded (set scalar_eqb (ev_id e) v (vs_responded s)) s).
Proof.
  set (b := match ev_status e with Completed | Cancelled => true | _ => false end).
  assert (FB : b = true <-> final e) by (unfold b, final; destruct (ev_status e); split; intros H; try discriminate; try reflexivity; try (now left); try (now right); destruct H; discriminate).
  destruct (b && mem scalar_eqb (ev_id e) (vs_responded s)) eqn:C.
  - apply andb_true_iff in C as [C1 C2]. split; [reflexivity|]. split; [intros id N; simpl; now apply (get_del_other scalar_eqb scalar_eqb_eq)|].
    split; [intros _ _ ND; simpl; now apply (get_del_same scalar_eqb scalar_eqb_eq)|]. split; [intros [H|H]; [elim H; now apply FB|congruence]|].
    intros ND. simpl. now apply (nodup_del scalar_eqb).
  - split; [reflexivity|]. split; [intros id N; simpl; now apply (get_set_other scalar_eqb scalar_eqb_eq)|].
    split; [intros F M; apply FB in F; rewrite F, M in C; discriminate|]. split; [intros _; simpl; apply (get_set_same scalar_eqb scalar_eqb_eq)|].
    intros ND. simpl. now apply (nodup_set scalar_eqb scalar_eqb_eq).
Qed.

(** Every case of handle_one. *)
Inductive one (local : Z -> Z) (h : handler) (i : nat) (e : event) (s : vstate) : vstate -> list logged -> result scalar -> Prop :=
| o_same r v s' : In r (vs_received s) -> ev_id r = ev_id e -> ev_mod r = ev_mod e -> get scalar_eqb (ev_id e) (vs_responded s) = Some v -> recorded e v s s' ->
    one local h i e s s' [] (Ok v)
| o_lost r : In r (vs_received s) -> ev_id r = ev_id e -> ev_mod r = ev_mod e -> get scalar_eqb (ev_id e) (vs_responded s) = None ->
    one local h i e s s [] (Raise KeyError)
| o_ask c l cs x s1 : known (vs_received s) e (Some c) ->
    (match c with New _ => l = (vs_received s ++ [e])%list | Update _ => l = (pop_first (same_id (ev_id e)) (vs_received s) ++ [e])%list end) ->
    h i c (set_received l s) = (cs, x) -> s1 = do_chores local cs (set_received l s) ->
    forall s', (match x with Ok v => recorded e v s1 s' | Raise _ => s' = s1 end) ->
    one local h i e s s' [(i, c, x)] x.

Lemma handle_one_spec local h i e s : forall s' log x, handle_one local h i e s = (s', log, x) -> one local h i e s s' log x.
Proof.
  intros s' log x. unfold handle_one. destruct (find (same_id (ev_id e)) (vs_received s)) as [r|] eqn:F.
  - apply find_some in F as [I E]. unfold same_id in E. apply scalar_eqb_eq in E. destruct (ev_mod r =? ev_mod e) eqn:M.
    + apply Z.eqb_eq in M. destruct (get scalar_eqb (ev_id e) (vs_responded s)) as [v|] eqn:G.
      * intros H. injection H as <- <- <-. eapply o_same; eauto. apply record_spec.
      * intros H. injection H as <- <- <-. eapply o_lost; eauto.
    + apply Z.eqb_neq in M. set (l := (pop_first (same_id (ev_id e)) (vs_received s) ++ [e])%list). destruct (h i (Update e) (set_received l s)) as [cs y] eqn:H0.
      assert (K : known (vs_received s) e (Some (Update e))) by (eapply k_changed; eauto).
      destruct y as [v|err]; intros H; injection H as <- <- <-; (eapply o_ask; [exact K|reflexivity|exact H0|reflexivity|]); [apply record_spec|reflexivity].
  - assert (K : known (vs_received s) e (Some (New e))).
    { apply k_new. intros r I E. apply (find_none _ _ F) in I. unfold same_id in I. apply scalar_eqb_neq in I. contradiction. }
    set (l := (vs_received s ++ [e])%list). destruct (h i (New e) (set_received l s)) as [cs y] eqn:H0.
    destruct y as [v|err]; intros H; injection H as <- <- <-; (eapply o_ask; [exact K|reflexivity|exact H0|reflexivity|]); [apply record_spec|reflexivity].
Qed.

Lemma recorded_one_copy e v s s' : recorded e v s s' -> one_copy s -> one_copy s'.
Proof. intros (R & _). unfold one_copy. now rewrite R. Qed.

Lemma asked_one_copy s e c l : one_copy s -> known (vs_received s) e (Some c) ->
  (match c with New _ => l = (vs_received s ++ [e])%list | Update _ => l = (pop_first (same_id (ev_id e)) (vs_received s) ++ [e])%list end) -> one_copy (set_received l s).
Proof.
  intros OC K L. unfold one_copy. simpl. inversion K; subst c; subst l.
  - now apply nodup_snoc.
  - apply nodup_snoc; [now apply pop_first_nodup|]. intros x I. eapply pop_first_gone; eassumption.
Qed.

Lemma one_one_copy local h i e s s' log x : one_copy s -> one local h i e s s' log x -> one_copy s'.
Proof.
  intros OC O. destruct O as [r v s' I E M G R|r I E M G|c l cs x s1 K L H S1 s' X]; [eapply recorded_one_copy; eassumption|exact OC|].
  assert (C1 : one_copy s1) by (subst s1; apply chores_one_copy; eapply asked_one_copy; eassumption).
  destruct x; [eapply recorded_one_copy; eassumption|now subst].
Qed.

Lemma handle_all_one_copy local h es : forall i s s' log x, one_copy s -> handle_all local h i es s = (s', log, x) -> one_copy s'.
Proof.
  induction es as [|e es IH]; intros i s s' log x OC; cbn [handle_all]; [intros H; injection H as <- <- <-; exact OC|].
  destruct (handle_one local h i e s) as [[s1 l1] [v|err]] eqn:O; apply handle_one_spec in O; apply (one_one_copy _ _ _ _ _ _ _ _ OC) in O.
  - destruct (handle_all local h (S i) es s1) as [[s2 l2] y] eqn:A. intros H. injection H as <- <- <-. eapply IH; eassumption.
  - intros H. injection H as <- <- <-. exact O.
Qed.

Lemma handle_all_length local h es : forall i s s' log vs, handle_all local h i es s = (s', log, Ok vs) -> length vs = length es.
Proof.
  induction es as [|e es IH]; intros i s s' log vs; cbn [handle_all]; [intros H; injection H as <- <- <-; reflexivity|].
  destruct (handle_one local h i e s) as [[s1 l1] [v|err]]; [|discriminate].
  destruct (handle_all local h (S i) es s1) as [[s2 l2] [ws|]] eqn:A; [|discriminate]. cbn [bind]. intros H. injection H as <- <- <-. simpl. f_equal. eapply IH. exact A.
Qed.

(** ** The responses *)
Lemma signals_code_spec l : ((forall s, In s l -> In (sg_name s) SIGNAL_NAME_values) /\ signals_code l = 200) \/
  (~ (forall s, In s l -> In (sg_name s) SIGNAL_NAME_values) /\ signals_code l = 460).
Proof.
  induction l as [|s l IH]; cbn [signals_code]; [left; split; [intros ? []|reflexivity]|].
  destruct (inb (sg_name s) SIGNAL_NAME_values) eqn:E.
  - assert (IN : In (sg_name s) SIGNAL_NAME_values) by (unfold inb in E; apply existsb_exists in E as (y & I & Y); apply String.eqb_eq in Y; now subst).
    destruct IH as [[A B]|[A B]]; [left|right]; (split; [|exact B]); [intros x [<-|I]; auto|]. intros H. apply A. intros x I. apply H. now right.
  - right. split; [|reflexivity]. intros H. specialize (H s (or_introl eq_refl)). assert (inb (sg_name s) SIGNAL_NAME_values = true); [|congruence].
    unfold inb. apply existsb_exists. exists (sg_name s). split; [exact H|apply String.eqb_refl].
Qed.

Lemma due_iff local clock i e : (ev_response e =? "always")%string && negb (status_eqb (fst (determine_event_status local (clock i) (ev_period e))) Completed) = true <-> due local clock i e.
Proof. unfold due. rewrite andb_true_iff, String.eqb_eq, negb_true_iff, <- not_true_iff_false, completed_iff. reflexivity. Qed.

Lemma responses_spec local clock m es : forall i vs, length vs = length es -> exists dl, those (due local clock) i es dl /\
  Forall2 (fun ie r => exists a, nth_error vs (fst ie - i) = Some a /\ (i <= fst ie)%nat /\ answers m (snd ie) a r) dl (responses local clock (m_request m) i es vs).
Proof.
  induction es as [|e es IH]; intros i [|v vs] L; try discriminate; cbn [responses]; [exists []; split; constructor|].
  destruct (IH (S i) vs ltac:(simpl in L; lia)) as (dl & T & F).
  assert (F' : Forall2 (fun ie r => exists a, nth_error (v :: vs) (fst ie - i) = Some a /\ (i <= fst ie)%nat /\ answers m (snd ie) a r) dl (responses local clock (m_request m) (S i) es vs)).
  { eapply Forall2_impl; [|exact F]. intros [k x] r (a & N & LE & A). cbn [fst snd] in *. exists a. split; [|split; [lia|exact A]]. now replace (k - i)%nat with (S (k - S i)) by lia. }
  destruct ((ev_response e =? "always")%string && negb (status_eqb (fst (determine_event_status local (clock i) (ev_period e))) Completed)) eqn:D.
  - exists ((i, e) :: dl). split; [constructor; [now apply due_iff|exact T]|]. constructor; [|exact F'].
    exists v. cbn [fst snd]. rewrite Nat.sub_diag. split; [reflexivity|]. split; [lia|]. split; [reflexivity|]. split; [reflexivity|]. split; [reflexivity|]. split; [reflexivity|].
    destruct (signals_code_spec (ev_signals e)) as [[A B]|[A B]]; [left|right]; auto.
  - exists dl. split; [constructor; [|exact T]|exact F']. intros H. apply due_iff in H. congruence.
Qed.

Lemma is_choice_iff v : is_choice v = true <-> v = SStr "optIn" \/ v = SStr "optOut".
Proof. unfold is_choice. rewrite orb_true_iff, !scalar_eqb_eq. reflexivity. Qed.

Lemma checked_nth es : forall vs k e v, nth_error es k = Some e -> nth_error vs k = Some v -> exists a, nth_error (checked es vs) k = Some a /\
  (ev_response e = "always" -> chosen v a) /\ (ev_response e <> "always" -> a = v).
Proof.
  induction es as [|e es IH]; intros [|v vs] [|k] e0 v0; simpl; try discriminate.
  - intros E V. injection E as <-. injection V as <-. eexists. split; [reflexivity|]. destruct (is_choice v) eqn:C; cbn [negb andb].
    + split; [|reflexivity]. intros _. left. split; [now apply is_choice_iff|reflexivity].
    + assert (NC : v <> SStr "optIn" /\ v <> SStr "optOut") by (split; intros H; subst; discriminate).
      destruct (ev_response e =? "always")%string eqn:R; [apply String.eqb_eq in R|apply String.eqb_neq in R]; split; intros H; try contradiction; try reflexivity. right. auto.
  - apply IH.
Qed.
Lemma checked_length es : forall vs, length vs = length es -> length (checked es vs) = length es.
Proof. induction es as [|e es IH]; intros [|v vs] L; try discriminate; simpl; [reflexivity|]. f_equal. apply IH. simpl in L. lia. Qed.

Lemma leb_nat a b : Ascii.leb a b = true <-> (nat_of_ascii a <= nat_of_ascii b)%nat.
Proof.
  unfold Ascii.leb, Ascii.compare, nat_of_ascii. set (x := N_of_ascii a). set (y := N_of_ascii b).
  destruct (N.compare_spec x y) as [E|E|E]; split; intros H; try reflexivity; try discriminate; lia.
Qed.
Lemma islower_iff s : islower s = true <-> lower_case s.
Proof.
  unfold islower, lower_case. rewrite andb_true_iff, existsb_exists, forallb_forall. unfold is_lower, is_upper.
  split; intros [A B]; (split; [destruct A as (c & I & C); exists c; split; [exact I|]|intros c I; specialize (B c I)]).
  - apply andb_true_iff in C as [C1 C2]. apply leb_nat in C1, C2. auto.
  - intros [C1 C2]. apply leb_nat in C1, C2. rewrite C1, C2 in B. discriminate.
  - apply andb_true_iff. split; apply leb_nat; lia.
  - apply negb_true_iff, not_true_iff_false. intros C. apply andb_true_iff in C as [C1 C2]. apply leb_nat in C1, C2. lia.
Qed.

(** How a message is dealt with: the values that are answered. *)
Inductive dealt (local : Z -> Z) (h : handler) (m : message) (s : vstate) : vstate -> list logged -> bool -> list scalar -> Prop :=
| d_lower v : m_vtn m = Some (SStr v) -> lower_case v -> dealt local h m s s [] true (map (fun _ => opt_out) (m_events m))
| d_no_text : (forall v, m_vtn m <> Some (SStr v)) -> dealt local h m s s [] false (map (fun _ => opt_out) (m_events m))
| d_ok s' log vs : proper_vtn m -> handle_all local h 0 (m_events m) s = (s', log, Ok vs) -> dealt local h m s s' log false (checked (m_events m) vs)
| d_raised s' log err : proper_vtn m -> handle_all local h 0 (m_events m) s = (s', log, Raise err) -> dealt local h m s s' log false (map (fun _ => opt_out) (m_events m)).

Lemma on_event_dealt local h clock m s s' log out : on_event local h clock m s = (s', log, out) ->
  exists bad vs, dealt local h m s s' log bad vs /\ out = match responses local clock (m_request m) 0 (m_events m) vs with [] => None | rs => Some (if bad : bool then 452 else 200, rs) end.
Proof.
  unfold on_event. 
  assert (K : forall s0 (log0 : list logged) bad vs, (match responses local clock (m_request m) 0 (m_events m) vs with [] => (s0, log0, None) | (_ :: _) as rs => (s0, log0, Some (if bad : bool then 452 else 200, rs)) end) = (s', log, out) ->
    s' = s0 /\ log = log0 /\ out = match responses local clock (m_request m) 0 (m_events m) vs with [] => None | rs => Some (if bad : bool then 452 else 200, rs) end).
  { intros s0 log0 bad vs. destruct (responses _ _ _ _ _ _); intros E; injection E as <- <- <-; auto. }
  assert (NT : (forall v, m_vtn m <> Some (SStr v)) -> (match responses local clock (m_request m) 0 (m_events m) (map (fun _ => opt_out) (m_events m)) with [] => (s, [], None) | (_ :: _) as rs => (s, [], Some (200, rs)) end) = (s', log, out) ->
    exists bad vs, dealt local h m s s' log bad vs /\ out = match responses local clock (m_request m) 0 (m_events m) vs with [] => None | rs => Some (if bad : bool then 452 else 200, rs) end).
  { intros V E. apply (K s [] false) in E as (-> & -> & ->). eexists false, _. split; [apply d_no_text; exact V|reflexivity]. }
  destruct (m_vtn m) as [x|] eqn:V; [|intros E; apply NT; [intros; discriminate|exact E]].
  destruct x as [|b|z|mant dg|v]; try (intros E; apply NT; [intros; discriminate|exact E]). clear NT.
  destruct (islower v) eqn:L.
  - intros E. apply (K s [] true (map (fun _ => opt_out) (m_events m))) in E as (-> & -> & ->). eexists true, _. split; [eapply d_lower; [exact V|now apply islower_iff]|reflexivity].
  - assert (P : proper_vtn m) by (exists v; split; [exact V|]; intros H; apply islower_iff in H; congruence).
    destruct (handle_all local h 0 (m_events m) s) as [[s1 l1] [vs|err]] eqn:A; intros E.
    + apply (K s1 l1 false (checked (m_events m) vs)) in E as (-> & -> & ->). eexists false, _. split; [eapply d_ok; eassumption|reflexivity].
    + apply (K s1 l1 false (map (fun _ => opt_out) (m_events m))) in E as (-> & -> & ->). eexists false, _. split; [eapply d_raised; eassumption|reflexivity].
Qed.

Lemma dealt_length local h m s s' log bad vs : dealt local h m s s' log bad vs -> length vs = length (m_events m).
Proof. intros D. destruct D; try apply map_length. apply checked_length. eapply handle_all_length. eassumption. Qed.

Lemma those_nth {A} (P : nat -> A -> Prop) i l dl : those P i l dl -> forall k x, In (k, x) dl -> (i <= k)%nat /\ nth_error l (k - i) = Some x /\ P k x.
Proof.
  intros T. induction T as [i|i x l r p T IH|i x l r np T IH]; intros k y I.
  - destruct I.
  - destruct I as [E|I]; [injection E as <- <-; rewrite Nat.sub_diag; auto|]. destruct (IH _ _ I) as (L & N & q). split; [lia|]. split; [|exact q].
    now replace (k - i)%nat with (S (k - S i)) by lia.
  - destruct (IH _ _ I) as (L & N & q). split; [lia|]. split; [|exact q]. now replace (k - i)%nat with (S (k - S i)) by lia.
Qed.

Lemma dealt_opt local h m s s' log bad vs k e a : dealt local h m s s' log bad vs -> nth_error (m_events m) k = Some e -> nth_error vs k = Some a -> ev_response e = "always" ->
  a = SStr "optIn" \/ a = SStr "optOut".
Proof.
  intros D N A R.
  assert (C : forall k, nth_error (map (fun _ : event => opt_out) (m_events m)) k = Some a -> a = SStr "optIn" \/ a = SStr "optOut").
  { intros j H. apply nth_error_In in H. apply in_map_iff in H as (y & <- & _). now right. }
  destruct D as [v| |s' log vs P H|s' log err P H]; try (eapply C; exact A).
  assert (L := handle_all_length _ _ _ _ _ _ _ _ H). assert (exists v, nth_error vs k = Some v) as [v V].
  { destruct (nth_error vs k) eqn:X; [eauto|]. apply nth_error_None in X. assert (nth_error (m_events m) k <> None) as N' by congruence. apply nth_error_Some in N'. lia. }
  destruct (checked_nth _ _ _ _ _ N V) as (a' & A' & CH & _). rewrite A in A'. injection A' as <-. destruct (CH R) as [[H1 ->]|[_ ->]]; [exact H1|now right].
Qed.

(** ** The loop, event by event *)
Inductive all (local : Z -> Z) (h : handler) : nat -> list event -> vstate -> vstate -> list logged -> result (list scalar) -> Prop :=
| a_nil i s : all local h i [] s s [] (Ok [])
| a_raise i e es s s' log err : one local h i e s s' log (Raise err) -> all local h i (e :: es) s s' log (Raise err)
| a_ok i e es s s1 s' l1 l2 v x : one local h i e s s1 l1 (Ok v) -> all local h (S i) es s1 s' l2 x ->
    all local h i (e :: es) s s' (l1 ++ l2) (bind x (fun vs => Ok (v :: vs))).

Lemma handle_all_spec local h es : forall i s s' log x, handle_all local h i es s = (s', log, x) -> all local h i es s s' log x.
Proof.
  induction es as [|e es IH]; intros i s s' log x; cbn [handle_all]; [intros H; injection H as <- <- <-; constructor|].
  destruct (handle_one local h i e s) as [[s1 l1] [v|err]] eqn:O; apply handle_one_spec in O.
  - destruct (handle_all local h (S i) es s1) as [[s2 l2] y] eqn:A. intros H. injection H as <- <- <-. eapply a_ok; [exact O|]. apply IH. exact A.
  - intros H. injection H as <- <- <-. now apply a_raise.
Qed.

Lemma one_log local h i e s s' log x : one local h i e s s' log x -> log = [] \/ exists c, log = [(i, c, x)] /\ (c = New e \/ c = Update e) /\ known (vs_received s) e (Some c).
Proof.
  intros O. destruct O as [r v s' I E M G R|r I E M G|c l cs x s1 K L H S1 s' X]; [now left|now left|]. right. exists c. split; [reflexivity|]. split; [|exact K]. inversion K; auto.
Qed.
Lemma all_log_pos local h i es s s' log x : all local h i es s s' log x -> forall k c y, In (k, c, y) log -> (i <= k)%nat.
Proof.
  intros A. induction A as [|i e es s s' log err O|i e es s s1 s' l1 l2 v x O A IH]; intros k c y I.
  - destruct I.
  - destruct (one_log _ _ _ _ _ _ _ _ O) as [->|(c' & -> & _)]; [destruct I|]. destruct I as [E|[]]. injection E as <- <- <-. lia.
  - apply in_app_iff in I as [I|I]; [|specialize (IH _ _ _ I); lia].
    destruct (one_log _ _ _ _ _ _ _ _ O) as [->|(c' & -> & _)]; [destruct I|]. destruct I as [E|[]]. injection E as <- <- <-. lia.
Qed.

(** Answers of other events are not touched. *)
Lemma one_responded_other local h i e s s' log x id : one local h i e s s' log x -> id <> ev_id e -> get scalar_eqb id (vs_responded s') = get scalar_eqb id (vs_responded s).
Proof.
  intros O N. destruct O as [r v s' I E M G R|r I E M G|c l cs x s1 K L H S1 s' X]; [now apply R|reflexivity|].
  assert (R1 : vs_responded s1 = vs_responded s) by (subst s1; rewrite chores_responded; reflexivity).
  destruct x; [|now subst s'; rewrite R1]. destruct X as (_ & X & _). rewrite X by exact N. now rewrite R1.
Qed.
Lemma all_responded_other local h i es s s' log x id : all local h i es s s' log x -> ~ In id (map ev_id es) -> get scalar_eqb id (vs_responded s') = get scalar_eqb id (vs_responded s).
Proof.
  intros A. induction A as [|i e es s s' log err O|i e es s s1 s' l1 l2 v x O A IH]; intros N; [reflexivity| |]; simpl in N.
  - eapply one_responded_other; [exact O|]. intros ->. apply N. now left.
  - rewrite IH by tauto. eapply one_responded_other; [exact O|]. intros ->. apply N. now left.
Qed.

(** Received events: those that were there (in id and number), and the one that came in. *)
Lemma one_received local h i e s s' log x r : one local h i e s s' log x -> In r (vs_received s') ->
  (exists r', In r' (vs_received s) /\ ev_id r' = ev_id r /\ ev_mod r' = ev_mod r) \/ ev_id r = ev_id e /\ ev_mod r = ev_mod e.
Proof.
  intros O I. destruct O as [q v s' I' E M G R|q I' E M G|c l cs x s1 K L H S1 s' X]; [destruct R as (R & _); rewrite R in I; eauto|eauto|].
  assert (I1 : In r (vs_received s1)) by (destruct x; [destruct X as (X & _); now rewrite X in I|now subst s']).
  subst s1. apply chores_sub in I1 as (r1 & I1 & A & B). simpl in I1. inversion K; subst c; subst l; apply in_app_iff in I1 as [I1|[<-|[]]]; auto.
  - left. exists r1. auto.
  - left. exists r1. split; [|auto]. eapply pop_first_sub; exact I1.
Qed.

(** ** Success *)

Lemma all_ok local h i es s s' log x : all local h i es s s' log x -> NoDup (map ev_id es) ->
  (forall r, In r (vs_received s) -> In (ev_id r) (map ev_id es) -> mem scalar_eqb (ev_id r) (vs_responded s) = true) -> no_failure log -> exists vs, x = Ok vs.
Proof.
  intros A. induction A as [|i e es s s' log err O|i e es s s1 s' l1 l2 v x O A IH]; intros N H F; [eauto| |].
  - exfalso. inversion O; subst.
    + assert (M : mem scalar_eqb (ev_id r) (vs_responded s') = true) by (apply H; [assumption|left; congruence]).
      apply (mem_in scalar_eqb scalar_eqb_eq) in M. match goal with E : get _ _ _ = None |- _ => apply (get_none_iff scalar_eqb scalar_eqb_eq) in E; apply E end.
      match goal with E : ev_id r = _ |- _ => now rewrite <- E end.
    + destruct (F i c (Raise err) (or_introl eq_refl)) as [? ?]; discriminate.
  - cbn [map] in N. inversion N; subst. destruct IH as [vs ->]; [assumption| | |eexists; reflexivity].
    + intros r I J. assert (NE : ev_id r <> ev_id e) by (intros E; rewrite E in J; contradiction).
      assert (M : mem scalar_eqb (ev_id r) (vs_responded s) = true).
      { destruct (one_received _ _ _ _ _ _ _ _ _ O I) as [(r' & I' & E1 & _)|[E1 _]]; [|contradiction]. rewrite <- E1. apply H; [exact I'|right; now rewrite E1]. }
      unfold mem in *. now rewrite (one_responded_other _ _ _ _ _ _ _ _ _ O NE).
    + intros k c y I. apply (F k c y). apply in_app_iff. now right.
Qed.

(** Each event's value: what its handler returned, or what was remembered. *)
Lemma one_value local h i e s s' log v : one local h i e s s' log (Ok v) ->
  (exists c, log = [(i, c, Ok v)] /\ (c = New e \/ c = Update e)) \/ log = [] /\ get scalar_eqb (ev_id e) (vs_responded s) = Some v.
Proof.
  intros O. inversion O; subst; [now right|]. left. exists c. split; [reflexivity|]. match goal with K : known _ _ _ |- _ => inversion K; auto end.
Qed.
Lemma all_values local h i es s s' log vs : all local h i es s s' log (Ok vs) -> NoDup (map ev_id es) -> forall k e v, nth_error es k = Some e -> nth_error vs k = Some v ->
  (exists c, In ((i + k)%nat, c, Ok v) log /\ (c = New e \/ c = Update e)) \/ (forall c y, ~ In ((i + k)%nat, c, y) log) /\ get scalar_eqb (ev_id e) (vs_responded s) = Some v.
Proof.
  remember (Ok vs) as x eqn:X. intros A. revert vs X. induction A as [|i e es s s' log err O|i e es s s1 s' l1 l2 v x O A IH]; intros vs X N k e0 v0 E V; try discriminate.
  - destruct k; discriminate.
  - destruct x as [ws|]; [|discriminate]. simpl in X. injection X as <-. cbn [map] in N. inversion N; subst. destruct k as [|k]; simpl in E, V.
    + injection E as <-. injection V as <-. rewrite Nat.add_0_r. destruct (one_value _ _ _ _ _ _ _ _ O) as [(c & -> & C)|[-> G]].
      * left. exists c. split; [now left|exact C].
      * right. split; [|exact G]. intros c y I. simpl in I. apply (all_log_pos _ _ _ _ _ _ _ _ A) in I. lia.
    + replace (i + S k)%nat with (S i + k)%nat by lia. destruct (IH ws eq_refl ltac:(assumption) k e0 v0 E V) as [(c & I & C)|[NI G]].
      * left. exists c. split; [apply in_app_iff; now right|exact C].
      * right. split.
        -- intros c y I. apply in_app_iff in I as [I|I]; [|eapply NI; exact I]. destruct (one_log _ _ _ _ _ _ _ _ O) as [->|(c' & -> & _)]; [destruct I|]. destruct I as [Q|[]]. injection Q as Q _ _. lia.
        -- rewrite <- G. symmetry. eapply one_responded_other; [exact O|]. intros Q. match goal with NI' : ~ In _ _ |- _ => apply NI'; rewrite <- Q end.
           apply in_map. eapply nth_error_In. exact E.
Qed.

(** Something raised: a handler, or a remembered event without an answer. *)
Lemma all_fail_log local h i es s s' log vs : all local h i es s s' log (Ok vs) -> no_failure log.
Proof.
  remember (Ok vs) as x eqn:X. intros A. revert vs X. induction A as [|i e es s s' log err O|i e es s s1 s' l1 l2 v x O A IH]; intros vs X; try discriminate.
  - intros ? ? ? [].
  - destruct x as [ws|]; [|discriminate]. intros k c y I. apply in_app_iff in I as [I|I]; [|eapply (IH ws eq_refl); exact I].
    destruct (one_log _ _ _ _ _ _ _ _ O) as [->|(c' & -> & _)]; [destruct I|]. destruct I as [E|[]]. injection E as <- <- <-. eauto.
Qed.

(** ** Known *)
Lemma known_fun l e a b : NoDup (map ev_id l) -> known l e a -> known l e b -> a = b.
Proof.
  intros N.
  assert (U : forall r r', In r l -> In r' l -> ev_id r = ev_id r' -> r = r').
  { clear - N. induction l as [|x l IH]; intros r r' I J E; [destruct I|]. cbn [map] in N. inversion N; subst. destruct I as [<-|I], J as [<-|J]; [reflexivity| | |auto].
    - elim H1. rewrite E. now apply in_map.
    - elim H1. rewrite <- E. now apply in_map. }
  intros A B. destruct A as [F|r I E M|r I E M], B as [F'|r' I' E' M'|r' I' E' M']; try reflexivity; try (exfalso; eapply F; eassumption); try (exfalso; eapply F'; eassumption).
  - assert (r = r') by (apply U; congruence). subst. contradiction.
  - assert (r = r') by (apply U; congruence). subst. contradiction.
Qed.
Lemma known_total l e : exists o, known l e o.
Proof.
  induction l as [|x l [o K]]; [exists (Some (New e)); apply k_new; intros ? []|].
  destruct (scalar_eqb (ev_id x) (ev_id e)) eqn:E.
  - apply scalar_eqb_eq in E. destruct (Z.eq_dec (ev_mod x) (ev_mod e)); [exists None; eapply k_same; [now left|..]; assumption|eexists; eapply k_changed; [now left|..]; assumption].
  - apply scalar_eqb_neq in E. destruct K as [F|r I A B|r I A B].
    + eexists. apply k_new. intros r [<-|I]; auto.
    + eexists. eapply k_same; [right; exact I|..]; assumption.
    + eexists. eapply k_changed; [right; exact I|..]; assumption.
Qed.

(** ** Settled events stay so *)
Definition quiet (local : Z -> Z) (p : active_period) (h : handler) : Prop := forall i c s, Forall (before_end local p) (fst (h i c s)).
Definition same_again (id : scalar) (n : Z) (e : event) : Prop := ev_id e = id -> ev_mod e = n /\ ev_status e <> Completed /\ ev_status e <> Cancelled.

Lemma one_settled local h i e s s' log x id n p v : one_copy s -> quiet local p h -> same_again id n e -> settled id n p v s -> one local h i e s s' log x ->
  settled id n p v s' /\ (ev_id e = id -> log = [] /\ x = Ok v).
Proof.
  intros OC Q SA [(r & I & A1 & A2 & A3 & A4) G] O. destruct O as [q w s' I' E M G' R|q I' E M G'|c l cs x s1 K L H S1 s' X].
  - destruct R as (R1 & R2 & R3 & R4 & R5). split.
    + split; [exists r; rewrite R1; auto|]. destruct (scalar_eq_dec (ev_id e) id) as [D|D]; [|rewrite R2; auto].
      rewrite <- D, R4; [congruence|]. left. destruct (SA D) as (_ & S1 & S2). unfold final. tauto.
    + intros D. split; [reflexivity|]. congruence.
  - split; [split; [exists r; auto|exact G]|]. intros D. rewrite D in G'. congruence.
  - assert (D : ev_id e <> id).
    { intros D. destruct (SA D) as (S & _). assert (K' : known (vs_received s) e None) by (eapply k_same; [exact I|congruence|congruence]).
      pose proof (known_fun _ _ _ _ OC K K'). discriminate. }
    split; [|intros; contradiction].
    assert (T : settled id n p v s1).
    { subst s1. apply chores_settled; [specialize (Q i c (set_received l s)); now rewrite H in Q|]. split; [|exact G]. exists r. split; [|auto]. simpl.
      inversion K; subst c; subst l; apply in_app_iff; left; [exact I|]. apply pop_first_other; [exact I|congruence]. }
    destruct x; [|now subst s']. destruct X as (R1 & R2 & _). destruct T as [(r1 & T1 & T2) T3]. split; [exists r1; now rewrite R1|]. rewrite R2; auto.
Qed.

Lemma all_settled local h i es s s' log x id n p v : all local h i es s s' log x -> one_copy s -> quiet local p h -> (forall e, In e es -> same_again id n e) -> settled id n p v s ->
  settled id n p v s' /\
  (forall k e, nth_error es k = Some e -> ev_id e = id -> (forall c y, ~ In ((i + k)%nat, c, y) log) /\ (forall vs, x = Ok vs -> nth_error vs k = Some v)).
Proof.
  intros A. induction A as [|i e es s s' log err O|i e es s s1 s' l1 l2 w x O A IH]; intros OC Q SA T.
  - split; [exact T|]. intros [|k] ?; discriminate.
  - destruct (one_settled _ _ _ _ _ _ _ _ _ _ _ _ OC Q (SA e (or_introl eq_refl)) T O) as [T' V]. split; [exact T'|]. intros k e0 E D. split; [|discriminate].
    intros c y I. destruct (one_log _ _ _ _ _ _ _ _ O) as [->|(c' & -> & _)]; [destruct I|]. destruct I as [J|[]]. injection J as J _ _.
    destruct k; [|lia]. injection E as <-. destruct (V D). discriminate.
  - destruct (one_settled _ _ _ _ _ _ _ _ _ _ _ _ OC Q (SA e (or_introl eq_refl)) T O) as [T' V].
    destruct IH as [T2 W]; [eapply one_one_copy; eassumption|exact Q|intros e' I; apply SA; now right|exact T'|]. split; [exact T2|].
    intros k e0 E D. destruct k as [|k].
    + injection E as <-. destruct (V D) as [-> X]. injection X as ->. split.
      * rewrite Nat.add_0_r. intros c y I. simpl in I. apply (all_log_pos _ _ _ _ _ _ _ _ A) in I. lia.
      * intros vs X. destruct x; [|discriminate]. injection X as <-. reflexivity.
    + simpl in E. destruct (W k e0 E D) as [NI N]. replace (i + S k)%nat with (S i + k)%nat by lia. split.
      * intros c y I. apply in_app_iff in I as [I|I]; [|eapply NI; exact I]. destruct (one_log _ _ _ _ _ _ _ _ O) as [->|(c' & -> & _)]; [destruct I|]. destruct I as [J|[]]. injection J as J _ _. lia.
      * intros vs X. destruct x as [ws|]; [|discriminate]. injection X as <-. simpl. now apply N.
Qed.

(** An event that is asked about becomes settled. *)
Lemma one_settles local h i e s s' log v : one_copy s -> quiet local (ev_period e) h -> ~ final e -> log <> [] -> one local h i e s s' log (Ok v) ->
  settled (ev_id e) (ev_mod e) (ev_period e) v s'.
Proof.
  intros OC Q NF NL O. inversion O; subst; [contradiction|]. match goal with R : recorded _ _ _ _ |- _ => destruct R as (R1 & _ & _ & R4 & _) end.
  split; [|apply R4; now left]. rewrite R1. 
  match goal with H : h i c (set_received l s) = (cs, _) |- _ => pose proof (Q i c (set_received l s)) as QQ; rewrite H in QQ end. simpl in QQ.
  assert (ST : settled (ev_id e) (ev_mod e) (ev_period e) v (set_responded (set scalar_eqb (ev_id e) v []) (set_received l s))).
  { split; [|apply (get_set_same scalar_eqb scalar_eqb_eq)]. exists e. split; [|split; [reflexivity|]; split; [reflexivity|]; split; [reflexivity|]; unfold final in NF; tauto]. simpl.
    match goal with K : known _ _ (Some c) |- _ => inversion K; subst c end; subst l; apply in_app_iff; right; now left. }
  assert (RC : forall cs s d, vs_received (do_chores local cs (set_responded d s)) = vs_received (do_chores local cs s)).
  { clear. induction cs as [|c cs IH]; intros s d; [reflexivity|]. unfold do_chores in *. cbn [fold_left].
    replace (do_chore local c (set_responded d s)) with (set_responded d (do_chore local c s)) by (destruct c; reflexivity). apply IH. }
  apply (chores_settled local cs _ _ _ _ QQ) in ST. destruct ST as [ST _]. now rewrite RC in ST.
Qed.
Lemma all_settles local h i es s s' log vs : all local h i es s s' log (Ok vs) -> one_copy s -> NoDup (map ev_id es) ->
  forall k e c v, nth_error es k = Some e -> In ((i + k)%nat, c, Ok v) log -> quiet local (ev_period e) h -> ~ final e -> settled (ev_id e) (ev_mod e) (ev_period e) v s'.
Proof.
  remember (Ok vs) as x eqn:X. intros A. revert vs X. induction A as [|i e es s s' log err O|i e es s s1 s' l1 l2 w x O A IH]; intros vs X OC N k e0 c v E I Q NF; try discriminate.
  - destruct I.
  - destruct x as [ws|]; [|discriminate]. cbn [map] in N. inversion N; subst. pose proof (one_one_copy _ _ _ _ _ _ _ _ OC O) as OC1. destruct k as [|k]; simpl in E.
    + injection E as <-. rewrite Nat.add_0_r in I. apply in_app_iff in I as [I|I]; [|apply (all_log_pos _ _ _ _ _ _ _ _ A) in I; lia].
      destruct (one_log _ _ _ _ _ _ _ _ O) as [->|(c' & -> & _)]; [destruct I|]. destruct I as [J|[]]. injection J as <- <-.
      eapply (all_settled _ _ _ _ _ _ _ _ _ _ _ _ A OC1 Q).
      * intros e' I' D. elim H1. rewrite <- D. now apply in_map.
      * eapply one_settles; [exact OC|exact Q|exact NF| |exact O]. discriminate.
    + replace (i + S k)%nat with (S i + k)%nat in I by lia. apply in_app_iff in I as [I|I].
      * destruct (one_log _ _ _ _ _ _ _ _ O) as [->|(c' & -> & _)]; [destruct I|]. destruct I as [J|[]]. injection J as J _ _. lia.
      * exact (IH ws eq_refl OC1 ltac:(assumption) k e0 c v E I Q NF).
Qed.

(** ** Handlers that do not wait *)
Lemma one_prompt local h i e s s' log x : prompt h -> one_copy s -> one local h i e s s' log x ->
  (forall c, called log i c <-> known (vs_received s) e (Some c)) /\
  (forall r, In r (vs_received s') <-> (In r (vs_received s) /\ forall j c, called log j c -> ev_id (subject c) <> ev_id r) \/ asked_about log r).
Proof.
  intros P OC O. destruct O as [q w s' I' E M G' R|q I' E M G'|c l cs x s1 K L H S1 s' X].
  - assert (NC : forall c, ~ called [] i c) by (intros c [y []]). split.
    + intros c. split; [intros C; elim (NC _ C)|]. intros K. assert (K' : known (vs_received s) e None) by (eapply k_same; eassumption). pose proof (known_fun _ _ _ _ OC K K'). discriminate.
    + intros r. destruct R as (R & _). rewrite R. split; [intros I; left; split; [exact I|]; intros j c [y []]|]. intros [[I _]|(j & c & [y []] & _)]. exact I.
  - assert (NC : forall c, ~ called [] i c) by (intros c [y []]). split.
    + intros c. split; [intros C; elim (NC _ C)|]. intros K. assert (K' : known (vs_received s) e None) by (eapply k_same; eassumption). pose proof (known_fun _ _ _ _ OC K K'). discriminate.
    + intros r. split; [intros I; left; split; [exact I|]; intros j c [y []]|]. intros [[I _]|(j & c & [y []] & _)]. exact I.
  - assert (CS : cs = []) by (specialize (P i c (set_received l s)); now rewrite H in P). subst cs. unfold do_chores in S1. cbn [fold_left] in S1. subst s1. split.
    + intros c'. split; [intros [y [J|[]]]; injection J as <- <-; exact K|]. intros K'. pose proof (known_fun _ _ _ _ OC K K') as J. injection J as <-. exists x. now left.
    + intros r. assert (RE : vs_received s' = l) by (destruct x; [destruct X as (X & _); exact X|now subst s']). rewrite RE.
      assert (SU : subject c = e) by (inversion K; reflexivity).
      assert (AA : asked_about [(i, c, x)] r <-> r = e).
      { split; [intros (j & c' & [y [J|[]]] & Y); injection J as <- <- <-; congruence|]. intros ->. exists i, c. split; [exists x; now left|exact SU]. }
      assert (NC : (forall j c', called [(i, c, x)] j c' -> ev_id (subject c') <> ev_id r) <-> ev_id e <> ev_id r).
      { split; [intros Q; specialize (Q i c); rewrite SU in Q; apply Q; exists x; now left|]. intros NE j c' [y [J|[]]]. injection J as <- <- <-. now rewrite SU. }
      rewrite AA, NC. inversion K; subst c; subst l; rewrite in_app_iff; cbn [In].
      * split; [intros [I|[<-|[]]]; [left; split; [exact I|]; intros Q; eapply H1; [exact I|congruence]|now right]|]. intros [[I _]| ->]; [now left|right; now left].
      * split.
        -- intros [I|[<-|[]]]; [|now right]. left. split; [eapply pop_first_sub; exact I|]. pose proof (pop_first_gone _ _ _ OC I) as Q. congruence.
        -- intros [[I Q]| ->]; [|right; now left]. left. apply pop_first_other; [exact I|congruence].
Qed.

Lemma called_app l1 l2 j c : called (l1 ++ l2) j c <-> called l1 j c \/ called l2 j c.
Proof.
  unfold called. split; [intros [y I]; apply in_app_iff in I as [I|I]; eauto|]. intros [[y I]|[y I]]; exists y; apply in_app_iff; auto.
Qed.
Lemma asked_app l1 l2 r : asked_about (l1 ++ l2) r <-> asked_about l1 r \/ asked_about l2 r.
Proof.
  unfold asked_about. split.
  - intros (j & c & C & S). apply called_app in C as [C|C]; [left|right]; eauto.
  - intros [(j & c & C & S)|(j & c & C & S)]; exists j, c; rewrite called_app; auto.
Qed.
Lemma one_called_pos local h i e s s' log x j c : one local h i e s s' log x -> called log j c -> j = i /\ subject c = e.
Proof.
  intros O [y I]. destruct (one_log _ _ _ _ _ _ _ _ O) as [->|(c' & -> & C & _)]; [destruct I|]. destruct I as [J|[]]. injection J as <- <- <-. split; [reflexivity|]. now destruct C; subst.
Qed.
Lemma all_called_subject local h i es s s' log x : all local h i es s s' log x -> forall j c, called log j c -> In (subject c) es.
Proof.
  intros A. induction A as [|i e es s s' log err O|i e es s s1 s' l1 l2 v x O A IH]; intros j c C.
  - destruct C as [y []].
  - left. symmetry. eapply one_called_pos; eassumption.
  - apply called_app in C as [C|C]; [left; symmetry; eapply one_called_pos; eassumption|right; eauto].
Qed.
Lemma known_ext l l' e o : (forall r, ev_id r = ev_id e -> (In r l <-> In r l')) -> known l e o -> known l' e o.
Proof.
  intros X K. destruct K as [F|r I E M|r I E M].
  - apply k_new. intros r I E. eapply F; [|exact E]. now apply X.
  - eapply k_same; [apply X; [exact E|exact I]|..]; assumption.
  - eapply k_changed; [apply X; [exact E|exact I]|..]; assumption.
Qed.

Definition got_to (i : nat) (es : list event) (s : vstate) (log : list logged) (x : result (list scalar)) (n : nat) : Prop :=
  (exists vs, x = Ok vs) /\ n = length es \/
  exists k e err, n = S k /\ x = Raise err /\ nth_error es k = Some e /\
    ((exists c, In ((i + k)%nat, c, Raise err) log) \/ known (vs_received s) e None /\ get scalar_eqb (ev_id e) (vs_responded s) = None).

Lemma all_prompt local h i es s s' log x : prompt h -> all local h i es s s' log x -> one_copy s -> NoDup (map ev_id es) -> exists n,
  got_to i es s log x n /\
  (forall k e, nth_error es k = Some e -> (k < n)%nat -> forall c, called log (i + k) c <-> known (vs_received s) e (Some c)) /\
  (forall j c, called log j c -> (i <= j < i + n)%nat) /\
  StronglySorted lt (map (fun l => fst (fst l)) log) /\
  (forall r, In r (vs_received s') <-> (In r (vs_received s) /\ forall j c, called log j c -> ev_id (subject c) <> ev_id r) \/ asked_about log r).
Proof.
  intros P A. induction A as [|i e es s s' log err O|i e es s s1 s' l1 l2 v x O A IH]; intros OC N.
  - exists 0%nat. split; [left; split; [eauto|reflexivity]|]. split; [intros; lia|]. split; [intros j c [y []]|]. split; [constructor|].
    intros r. split; [intros I; left; split; [exact I|]; intros j c [y []]|]. intros [[I _]|(j & c & [y []] & _)]. exact I.
  - destruct (one_prompt _ _ _ _ _ _ _ _ P OC O) as [C R]. exists 1%nat. split; [right; exists 0%nat, e, err; split; [reflexivity|]; split; [reflexivity|]; split; [reflexivity|]|].
    { rewrite Nat.add_0_r. inversion O; subst; [right; split; [eapply k_same; eassumption|assumption]|left; eexists; now left]. }
    split; [intros k e0 E L; assert (k = 0)%nat by lia; subst k; injection E as <-; rewrite Nat.add_0_r; exact C|].
    split; [intros j c Q; destruct (one_called_pos _ _ _ _ _ _ _ _ _ _ O Q); lia|]. split; [|exact R].
    destruct (one_log _ _ _ _ _ _ _ _ O) as [->|(c' & -> & _)]; repeat constructor.
  - cbn [map] in N. inversion N as [|? ? NI ND]; subst. destruct (one_prompt _ _ _ _ _ _ _ _ P OC O) as [C R]. pose proof (one_one_copy _ _ _ _ _ _ _ _ OC O) as OC1.
    destruct (IH OC1 ND) as (n & G & K & B & S & R'). clear IH. exists (Datatypes.S n).
    assert (OTHER : forall r, ev_id r <> ev_id e -> (In r (vs_received s) <-> In r (vs_received s1))).
    { intros r NE. rewrite R. split.
      - intros I. left. split; [exact I|]. intros j c Q. destruct (one_called_pos _ _ _ _ _ _ _ _ _ _ O Q) as [_ ->]. congruence.
      - intros [[I _]|(j & c & Q & E)]; [exact I|]. destruct (one_called_pos _ _ _ _ _ _ _ _ _ _ O Q) as [_ E']. congruence. }
    assert (IDS : forall k e0, nth_error es k = Some e0 -> ev_id e0 <> ev_id e).
    { intros k e0 E D. apply NI. rewrite <- D. apply in_map. eapply nth_error_In; exact E. }
    assert (KN : forall k e0 o, nth_error es k = Some e0 -> (known (vs_received s1) e0 o <-> known (vs_received s) e0 o)).
    { intros k e0 o E. specialize (IDS _ _ E). split; apply known_ext; intros r D; [symmetry|]; apply OTHER; congruence. }
    split; [|split; [|split; [|split]]].
    + destruct G as [[[vs ->] ->]|(k & e0 & err & -> & -> & E & G)]; [left; split; [eexists; reflexivity|reflexivity]|right].
      exists (Datatypes.S k), e0, err. split; [reflexivity|]. split; [reflexivity|]. split; [exact E|]. replace (i + Datatypes.S k)%nat with (Datatypes.S i + k)%nat by lia.
      destruct G as [[c I]|[G1 G2]]; [left; exists c; apply in_app_iff; now right|right]. split; [eapply KN; eassumption|].
      rewrite <- G2. symmetry. eapply one_responded_other; [exact O|]. eapply IDS. exact E.
    + intros [|k] e0 E L c; simpl in E.
      * injection E as <-. rewrite Nat.add_0_r, <- C, called_app. split; [|now left]. intros [Q|Q]; [exact Q|]. destruct (B _ _ Q). lia.
      * rewrite <- (KN k e0 _ E), <- (K k e0 E ltac:(lia)), called_app. replace (i + Datatypes.S k)%nat with (Datatypes.S i + k)%nat by lia. split; [|now right].
        intros [Q|Q]; [|exact Q]. destruct (one_called_pos _ _ _ _ _ _ _ _ _ _ O Q). lia.
    + intros j c Q. apply called_app in Q as [Q|Q]; [destruct (one_called_pos _ _ _ _ _ _ _ _ _ _ O Q); lia|]. destruct (B _ _ Q). lia.
    + rewrite map_app. destruct (one_log _ _ _ _ _ _ _ _ O) as [->|(c' & -> & _)]; [exact S|]. simpl. constructor; [exact S|]. apply Forall_forall. intros j I.
      apply in_map_iff in I as ([[j' c] y] & J & I). simpl in J. subst j'. destruct (B j c); [exists y; exact I|lia].
    + intros r. rewrite R', R, asked_app. split.
      * intros [[[[I Q]|Q] Q2]|Q]; [|right; now left|right; now right]. left. split; [exact I|]. intros j c Z. apply called_app in Z as [Z|Z]; eauto.
      * intros [[I Q]|[Q|Q]].
        -- left. split; [left; split; [exact I|]|]; intros j c Z; eapply Q; apply called_app; eauto.
        -- left. split; [now right|]. intros j c Z D. destruct Q as (j' & c' & Q & E). destruct (one_called_pos _ _ _ _ _ _ _ _ _ _ O Q) as [_ E']. rewrite E' in E. subst r.
           apply NI. rewrite <- D. apply in_map. eapply all_called_subject; eassumption.
        -- now right.
Qed.

(** ** Histories *)
Lemma on_event_one_copy local h clock m s : one_copy s -> one_copy (fst (fst (on_event local h clock m s))).
Proof.
  intros OC. destruct (on_event local h clock m s) as [[s' log] out] eqn:E. cbn [fst]. destruct (on_event_dealt _ _ _ _ _ _ _ _ E) as (bad & vs & D & _).
  destruct D; try exact OC; eapply handle_all_one_copy; eassumption.
Qed.
Lemma run_one_copy local ops : forall s, one_copy s -> one_copy (run local ops s).
Proof.
  induction ops as [|o ops IH]; intros s OC; [exact OC|]. apply IH. destruct o; simpl; [now apply on_event_one_copy|now apply chore_one_copy].
Qed.
Lemma on_event_settled local h clock m s id n p v s' log out : on_event local h clock m s = (s', log, out) -> one_copy s -> quiet local p h ->
  (forall e, In e (m_events m) -> same_again id n e) -> settled id n p v s -> settled id n p v s'.
Proof.
  intros E OC Q SA T. destruct (on_event_dealt _ _ _ _ _ _ _ _ E) as (bad & vs & D & _). destruct D as [? ? ?|?|s' log ws P H|s' log err P H]; try exact T;
    apply handle_all_spec in H; eapply (all_settled _ _ _ _ _ _ _ _ _ _ _ _ H); eassumption.
Qed.
Lemma run_settled local ops id n p v : Forall (unchanged local id n p) ops -> forall s, one_copy s -> settled id n p v s -> settled id n p v (run local ops s).
Proof.
  intros F. induction F as [|o ops U F IH]; intros s OC T; [exact T|]. apply IH.
  - destruct o; simpl; [now apply on_event_one_copy|now apply chore_one_copy].
  - destruct o; simpl in *; [|now apply chore_settled]. destruct (on_event local h clock m s) as [[s' log] out] eqn:E. destruct U as [U1 U2]. cbn [fst]. eapply on_event_settled; eassumption.
Qed.
