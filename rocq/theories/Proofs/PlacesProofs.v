(** Preflight changes a payload in few places. *)
From Coq Require Import ZArith String List Bool Lia.
From Verif.Base Require Import Result Dict PyStr.
From Verif.Model Require Import DateTime Duration Measurements Normalize Preflight PreflightDict.
From Verif.Spec Require Import PlacesSpec.
Import ListNotations.
Local Open Scope string_scope.

Lemma agree_trans C A u v w : agree C A u v -> agree C A v w -> agree C A u w.
Proof.
  intros H. revert w. induction H as [C A v|C A v w H|C A d e K N S IH|C A l m L S IH]; intros x H'; [assumption|now apply agree_changed|..].
  - inversion H' as [| |? ? ? f K' N' S'|]; subst; [now (apply agree_dict + apply agree_list)|now apply agree_changed|]. apply agree_dict.
    + intros k D. apply K', K, D.
    + intros k D F. destruct (vget k e) as [y|] eqn:E; [apply (N k D); congruence|apply (N' k E F)].
    + intros k a c D F. destruct (vget k e) as [b|] eqn:E; [|exfalso; apply (K k); congruence]. apply (IH k a b D E). now apply (S' k).
  - inversion H' as [| | |? ? ? o L' S']; subst; [now (apply agree_dict + apply agree_list)|now apply agree_changed|]. apply agree_list; [congruence|].
    intros i a c D F. destruct (nth_error m i) as [b|] eqn:E.
    + apply (IH i a b D E). now apply (S' i).
    + apply nth_error_None in E. assert (i < length l)%nat by (apply nth_error_Some; congruence). lia.
Qed.

Lemma agree_put (C A : places) k a x d : vget k d = Some a -> agree (below (Key k) C) (below (Key k) A) a x -> agree C A (VDict d) (VDict (vset k x d)).
Proof.
  intros E H. unfold vget in E. apply agree_dict; unfold vget, vset; intros j.
  - rewrite (get_set String.eqb String.eqb_eq). now destruct (String.eqb j k).
  - rewrite (get_set String.eqb String.eqb_eq). destruct (String.eqb j k) eqn:J; [|contradiction]. apply String.eqb_eq in J as ->. congruence.
  - intros v w. rewrite (get_set String.eqb String.eqb_eq). destruct (String.eqb j k) eqn:J.
    + apply String.eqb_eq in J as ->. intros F [= <-]. congruence.
    + intros F G. assert (v = w) as -> by congruence. apply agree_same.
Qed.
Lemma agree_add (C A : places) k x d : A [Key k] -> vget k d = None \/ C [Key k] -> agree C A (VDict d) (VDict (vset k x d)).
Proof.
  intros H H'. apply agree_dict; unfold vget, vset; intros j.
  - rewrite (get_set String.eqb String.eqb_eq). now destruct (String.eqb j k).
  - rewrite (get_set String.eqb String.eqb_eq). destruct (String.eqb j k) eqn:J; [|contradiction]. now apply String.eqb_eq in J as ->.
  - intros v w. rewrite (get_set String.eqb String.eqb_eq). destruct (String.eqb j k) eqn:J.
    + apply String.eqb_eq in J as ->. intros F _. destruct H' as [H'|H']; [unfold vget in H'; congruence|]. now apply agree_changed.
    + intros F G. assert (v = w) as -> by congruence. apply agree_same.
Qed.

Lemma item_ok k v x : item k v = Ok x -> exists d, v = VDict d /\ vget k d = Some x.
Proof. destruct v; try discriminate. cbn. destruct (vget k d) eqn:E; [|discriminate]. intros [= <-]. now exists d. Qed.
Lemma bind_ok {X Y} (r : result X) (f : X -> result Y) y : bind r f = Ok y -> exists x, r = Ok x /\ f x = Ok y.
Proof. destruct r; [now exists a|discriminate]. Qed.
Lemma mapM_agree (C A : places) f l m : (forall x y, f x = Ok y -> agree (below Each C) (below Each A) x y) -> mapM f l = Ok m -> agree C A (VList l) (VList m).
Proof.
  intros F H. apply mapM_ok in H. apply agree_list; [induction H; cbn; congruence|].
  intros i v w. revert i. induction H as [|x y l m E _ IH]; intros [|i]; cbn; try discriminate; [|apply IH].
  intros [= <-] [= <-]. now apply F.
Qed.
Lemma mapMi_agree (C A : places) f l : forall m i, (forall i x y, f i x = Ok y -> agree (below Each C) (below Each A) x y) -> mapMi f i l = Ok m -> agree C A (VList l) (VList m).
Proof.
  intros m i F H. assert (G : Forall2 (fun x y => exists j, f j x = Ok y) l m).
  { revert m i H. induction l as [|x l IH]; intros m i; cbn; [intros [= <-]; constructor|]. intros H. apply bind_ok in H as (y & E & H). apply bind_ok in H as (ys & E' & [= <-]).
    constructor; [now exists i|]. now apply (IH _ (S i)). }
  clear H i. apply agree_list; [induction G; cbn; congruence|].
  intros i v w. revert i. induction G as [|x y l m (j & E) _ IH]; intros [|i]; cbn; try discriminate; [|apply IH].
  intros [= <-] [= <-]. now apply (F j).
Qed.
Lemma each_agree (C A : places) k f v w : (forall x y, f x = Ok y -> agree (below Each (below (Key k) C)) (below Each (below (Key k) A)) x y) -> each k f v = Ok w -> agree C A v w.
Proof.
  intros F H. unfold each in H. apply bind_ok in H as (l & I & H). apply item_ok in I as (d & -> & G). apply bind_ok in H as (xs & X & H). apply bind_ok in H as (ys & Y & [= <-]).
  destruct l; try apply agree_same. injection X as ->. apply (agree_put C A k (VList xs)); [assumption|]. now apply (mapM_agree _ _ f).
Qed.

Ltac ok := repeat match goal with
  | H : bind _ _ = Ok _ |- _ => apply bind_ok in H as (? & ? & H)
  | H : item _ _ = Ok _ |- _ => apply item_ok in H as (? & ? & ?)
  | H : Ok _ = Ok _ |- _ => injection H as H
  | H : Raise _ = Ok _ |- _ => discriminate H
  | H : VDict _ = VDict _ |- _ => injection H as H; subst
  end; subst.

Lemma event_duration_agree (C A : places) v w : C [Key "active_period"; Key "duration"] -> event_duration v = Ok w -> agree C A v w.
Proof.
  intros H E. unfold event_duration in E. ok. destruct (forallb _ _); ok; [constructor|]. destruct x3 as [|d0 ds]; ok; [constructor|].
  destruct (forallb _ (d0 :: ds)); ok. cbn [put]. eapply agree_put; [eassumption|]. eapply agree_put; [eassumption|]. now apply agree_changed.
Qed.
Lemma simple_signal_same v w : simple_signal v = Ok w -> agree nowhere nowhere v w.
Proof.
  intros E. unfold simple_signal in E. ok. destruct (the_text _ _); ok; [|constructor]. revert E. apply each_agree. intros y z E. unfold simple_payload in E. ok. destruct (existsb _ _); ok. constructor.
Qed.
Lemma agree_more (C C' A A' : places) v w : (forall p, C p -> C' p) -> (forall p, A p -> A' p) -> agree C A v w -> agree C' A' v w.
Proof.
  intros HC HA H. revert C' A' HC HA. induction H as [C A v|C A v w H|C A d e K N S IH|C A l m L S IH]; intros C' A' HC HA; [apply agree_same|apply agree_changed; auto|..].
  - apply agree_dict; [assumption|intros k D E; apply HA; now apply N|]. intros k v w D E. apply (IH k v w D E); intros p; [apply HC|apply HA].
  - apply agree_list; [assumption|]. intros i v w D E. apply (IH i v w D E); intros p; [apply HC|apply HA].
Qed.
Lemma current_value_agree (C A : places) e v w : C [Key "current_value"] -> current_value e v = Ok w -> agree C A v w.
Proof.
  intros H E. unfold current_value in E. ok. destruct x; ok; [|constructor]. destruct (is_number 0 x); ok; [constructor|]. destruct (the_text "SIMPLE" _); ok; [|constructor].
  destruct (the_text "ACTIVE" _); [constructor|]. cbn [put]. eapply agree_put; [eassumption|]. now apply agree_changed.
Qed.
Lemma add_ns_agree (C A : places) v w : C [Key "ns"] -> A [Key "ns"] -> add_ns v = Ok w -> agree C A v w.
Proof.
  intros HC HA E. unfold add_ns in E. ok. destruct x; ok. destruct (get _ _ _); ok. apply agree_add; auto.
Qed.
Lemma measured_agree (C A : places) f v w : (forall x y, f x = Ok y -> agree (below (Key "measurement") C) (below (Key "measurement") A) x y) -> measured f v = Ok w -> agree C A v w.
Proof.
  intros F E. unfold measured in E. ok. destruct x; ok; [|constructor]. assert (G : x = VNone /\ w = VDict x0 \/ exists y, f x = Ok y /\ w = VDict (vset "measurement" y x0)).
  { destruct x; ok; [now left|right..]; eauto. }
  destruct G as [(_ & ->)|(y & Y & ->)]; [constructor|]. eapply agree_put; [eassumption|]. now apply F.
Qed.
Lemma response_required_agree (C A : places) v w : C [Key "response_required"] -> A [Key "response_required"] -> response_required v = Ok w -> agree C A v w.
Proof.
  intros HC HA E. unfold response_required in E. ok. destruct x; ok.
  - destruct (_ || _); [constructor|]. apply agree_add; auto.
  - destruct v; try apply agree_same. apply agree_add; auto.
Qed.
Lemma created_date_time_agree now (C A : places) v w : C [Key "event_descriptor"; Key "created_date_time"] -> A [Key "event_descriptor"; Key "created_date_time"] ->
  created_date_time now v = Ok w -> agree C A v w.
Proof.
  intros HC HA E. unfold created_date_time in E. ok. destruct x1; ok; [constructor|]. destruct x; ok. cbn [put]. eapply agree_put; [eassumption|]. apply agree_add; auto.
Qed.
Lemma targets_agree (C A : places) v w : A [Key "targets"] -> targets v = Ok w -> agree C A v w.
Proof.
  intros HA E. unfold targets in E. ok. destruct x, x0; ok; try apply agree_same; [destruct (same_groups _ _); ok; constructor|].
  cbn [put]. apply agree_add; [assumption|]. left. match goal with H : has "targets" (VDict ?d) = _ |- _ => cbn in H; injection H as H; unfold vmem, mem in H; unfold vget; destruct (get String.eqb "targets" d); [discriminate H|reflexivity] end.
Qed.

Lemma preflight_events_agree now (C A : places) l m :
  let C' := below Each C in let A' := below Each A in
  C' [Key "active_period"; Key "duration"] -> C' [Key "event_signals"; Each; Key "current_value"] -> C' [Key "event_signals"; Each; Key "measurement"; Key "ns"] ->
  C' [Key "response_required"] -> C' [Key "event_descriptor"; Key "created_date_time"] ->
  A' [Key "event_signals"; Each; Key "measurement"; Key "ns"] -> A' [Key "response_required"] -> A' [Key "event_descriptor"; Key "created_date_time"] -> A' [Key "targets"] ->
  preflight_events now l = Ok m -> agree C A (VList l) (VList m).
Proof.
  intros C' A' C1 C2 C3 C4 C5 A3 A4 A5 A6 H. unfold preflight_events, distribute_checks in H. cbn [foldM] in H.
  apply bind_ok in H as (l5 & H & K). apply bind_ok in K as (l6 & H6 & H7).
  apply bind_ok in H as (l1 & H1 & H). apply bind_ok in H as (l2 & H2 & H). apply bind_ok in H as (l3 & H3 & H). apply bind_ok in H as (l4 & H4 & H). apply bind_ok in H as (l5' & H5 & [= ->]).
  eapply agree_trans; [eapply mapM_agree; [|exact H1]; intros x y; now apply event_duration_agree|].
  eapply agree_trans; [eapply mapM_agree; [|exact H2]; intros x y; apply each_agree; intros x' y' E; apply (agree_more nowhere _ nowhere); [intros ? []..|now apply simple_signal_same]|].
  eapply agree_trans; [eapply mapM_agree; [|exact H3]; intros x y; apply each_agree; intros x' y'; now apply current_value_agree|].
  eapply agree_trans; [eapply mapM_agree; [|exact H4]; intros x y; apply each_agree; intros x' y'; apply measured_agree; intros x'' y''; now apply add_ns_agree|].
  eapply agree_trans; [eapply mapM_agree; [|exact H5]; intros x y; now apply response_required_agree|].
  eapply agree_trans; [eapply mapMi_agree; [|exact H6]; intros i x y; now apply created_date_time_agree|].
  eapply mapM_agree; [|exact H7]; intros x y; now apply targets_agree.
Qed.

Lemma validate_agree (C A : places) v w : C [Key "name"] -> C [Key "description"] -> validate_measurement v = Ok w -> agree C A v w.
Proof.
  intros C1 C2 E. unfold validate_measurement in E. apply bind_ok in E as (h1 & _ & E). destruct h1; cbn [negb] in E; [|discriminate]. apply bind_ok in E as (h2 & _ & E). destruct h2; cbn [negb] in E; [|discriminate].
  apply bind_ok in E as (h3 & _ & E). destruct h3; cbn [negb] in E; [|discriminate].
  apply bind_ok in E as (name & N & E). apply bind_ok in E as (descr & D & E). apply bind_ok in E as (unit & _ & E). apply item_ok in N as (d & -> & N). apply item_ok in D as (d' & [= <-] & D).
  destruct name; try discriminate E. apply bind_ok in E as (m & M & E). assert (m = w) as <-.
  { destruct (contains "power" s); [|congruence]. unfold power_given in E. repeat (ok; match type of E with (if ?b then _ else _) = _ => destruct b end). now injection E. }
  clear E. destruct (get String.eqb s measurement_descriptions) as [required|].
  - apply bind_ok in M as (m' & M & E). assert (m' = m) as ->. { destruct (get String.eqb s acceptable_units); [|discriminate]. destruct (existsb _ _); congruence. }
    destruct descr; try discriminate M. destruct (String.eqb s0 required); [injection M as <-; constructor|]. destruct (String.eqb _ _); [|discriminate]. injection M as <-.
    eapply agree_put; [eassumption|]. now apply agree_changed.
  - injection M as <-. destruct (String.eqb s "customUnit"); [constructor|]. eapply agree_put; [eassumption|]. now apply agree_changed.
Qed.
Lemma preflight_report_agree (C A : places) v w : C [Key "report_name"] -> C [Key "report_descriptions"; Each; Key "measurement"; Key "name"] -> C [Key "report_descriptions"; Each; Key "measurement"; Key "description"] ->
  C [Key "report_descriptions"; Each; Key "measurement"; Key "ns"] -> A [Key "report_descriptions"; Each; Key "measurement"; Key "ns"] -> preflight_report v = Ok w -> agree C A v w.
Proof.
  intros C1 C2 C3 C4 A4 H. unfold preflight_report in H. apply bind_ok in H as (v1 & H1 & H). apply bind_ok in H as (v2 & H2 & H3).
  apply (agree_trans C A v v1); [|apply (agree_trans C A v1 v2); [revert H2|revert H3]].
  - unfold report_name in H1. ok. destruct x; ok; try apply agree_same. destruct (_ && _); [|constructor]. cbn [put]. eapply agree_put; [eassumption|]. now apply agree_changed.
  - apply each_agree. intros x y. apply measured_agree. intros x' y'. now apply validate_agree.
  - apply each_agree. intros x y. apply measured_agree. intros x' y'. now apply add_ns_agree.
Qed.

Lemma events_places now p q : preflight_message now "oadrDistributeEvent" p = Ok q -> agree corrected_in_events completed_in_events (VDict p) (VDict q).
Proof.
  intros H. unfold preflight_message in H. cbn [String.eqb Ascii.eqb Bool.eqb] in H. ok. destruct x; try apply agree_same. match goal with E : elements _ = Ok _ |- _ => injection E as -> end.
  eapply agree_put; [eassumption|]. eapply preflight_events_agree; [..|eassumption]; cbv [below corrected_in_events completed_in_events of_signal of_event In]; tauto.
Qed.
Lemma reports_places now p q : preflight_message now "oadrRegisterReport" p = Ok q -> agree corrected_in_reports completed_in_reports (VDict p) (VDict q).
Proof.
  intros H. unfold preflight_message in H. cbn [String.eqb Ascii.eqb Bool.eqb] in H. ok. destruct x; try apply agree_same. match goal with E : elements _ = Ok _ |- _ => injection E as -> end.
  eapply agree_put; [eassumption|]. eapply mapM_agree; [|eassumption]. intros y z. apply preflight_report_agree; cbv [below corrected_in_reports completed_in_reports of_measurement In]; tauto.
Qed.
