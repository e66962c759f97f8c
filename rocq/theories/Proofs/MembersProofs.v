From Coq Require Import ZArith String Ascii List Bool Lia Permutation.
From Verif.Base Require Import Result Dict PyStr PyVal ListExtra.
From Verif.Model Require Import Members.
From Verif.Spec Require Import PathSpec.
Import ListNotations.
Local Open Scope string_scope.

Lemma seqb_spec : forall a b : string, String.eqb a b = true <-> a = b.
Proof. exact String.eqb_eq. Qed.

(** ** Paths *)
Lemma spells_split key ks : spells key ks <-> split dot key = ks.
Proof.
  unfold spells. split.
  - intros (N & D & ->). apply split_join; [assumption|]. now apply Forall_forall.
  - intros <-. split; [apply split_nonempty|]. split; [|now rewrite join_split].
    intros k I. pose proof (split_parts dot key) as F. rewrite Forall_forall in F. auto.
Qed.

Lemma split_part key k : In k (split dot key) -> split dot k = [k].
Proof. intros I. pose proof (split_parts dot key) as F. rewrite Forall_forall in F. apply split_no_char. auto. Qed.

Lemma removelast_last {A} (l : list A) d : l <> [] -> l = (removelast l ++ [last l d])%list.
Proof. intros H. now apply app_removelast_last. Qed.

Definition fields_of (v : val) : option (list (string * val)) :=
  match v with VDict d => Some d | VObj _ d => Some d | _ => None end.

Lemma child_fields v k x : child v k x <-> exists d, fields_of v = Some d /\ In (k, x) d.
Proof.
  split.
  - intros H; inversion H; subst; simpl; eauto.
  - intros (d & E & I). destruct v; try discriminate; injection E as <-; constructor; assumption.
Qed.

Lemma container_fields v : container v <-> exists d, fields_of v = Some d.
Proof. destruct v; simpl; split; try tauto; try (intros [d E]; discriminate); eauto. Qed.

Lemma wf_fields v d : wf v -> fields_of v = Some d -> NoDup (map fst d) /\ forall k x, In (k, x) d -> wf x.
Proof.
  intros W E. assert (W' : wf (VDict d)) by (destruct v; try discriminate; injection E as <-; exact W).
  split; [apply W'|]. intros k x I. apply wf_dict_get with (d := d) (k := k); [assumption|]. apply In_get_val; [apply W'|assumption].
Qed.

Lemma hasmember_fields v d k : fields_of v = Some d -> hasmember v k = Ok (mem String.eqb k d).
Proof. destruct v; try discriminate; intros E; injection E as <-; reflexivity. Qed.

Lemma getmember_one obj k missing : split dot k = [k] -> getmember obj k missing = getmember_inner obj k missing.
Proof. intros S. unfold getmember. rewrite S. simpl. now destruct (getmember_inner obj k missing). Qed.

Lemma getmember_inner_fields v d k missing : fields_of v = Some d ->
  getmember_inner v k missing =
  match get String.eqb k d with
  | Some x => Ok x
  | None => match missing with Some m => Ok m | None => Raise (match v with VObj _ _ => AttributeError | _ => KeyError end) end
  end.
Proof. destruct v; try discriminate; intros E; injection E as <-; simpl; destruct missing; reflexivity. Qed.

Lemma getmember_inner_ok v k x : getmember_inner v k None = Ok x -> exists d, fields_of v = Some d /\ get String.eqb k d = Some x.
Proof.
  destruct v; simpl; try discriminate; intros H;
    match goal with H : match get _ _ ?d with _ => _ end = _ |- _ => exists d; split; [reflexivity|]; destruct (get String.eqb k d); congruence end.
Qed.

Lemma mem_In {V} k (d : list (string * V)) : mem String.eqb k d = true <-> exists x, In (k, x) d.
Proof.
  unfold mem. split.
  - destruct (get String.eqb k d) eqn:E; [|discriminate]. intros _. eauto using get_In_val.
  - intros [x I]. destruct (get String.eqb k d) eqn:E; [reflexivity|].
    exfalso. induction d as [|[k' v'] d IH]; [contradiction|]. simpl in E. destruct (String.eqb_spec k k') as [->|N]; [discriminate|].
    destruct I as [I|I]; [congruence|auto].
Qed.

Lemma mem_get {V} k (d : list (string * V)) : mem String.eqb k d = true -> exists x, get String.eqb k d = Some x.
Proof. unfold mem. destruct (get String.eqb k d); [eauto|discriminate]. Qed.

(** ** find_by on complete paths *)
Lemma leads_fun v ks x y : wf v -> leads v ks x -> leads v ks y -> x = y.
Proof.
  intros W H; revert y. induction H; intros z Hz; inversion Hz; subst; [reflexivity|].
  assert (x = x0).
  { apply child_fields in H as (d & E & I). apply child_fields in H4 as (d' & E' & I').
    assert (d = d') by congruence; subst d'. destruct (wf_fields _ _ W E) as [N _].
    apply In_get_val in I; [|assumption]. apply In_get_val in I'; [|assumption]. congruence. }
  subst x0. apply IHleads; [|assumption].
  apply child_fields in H as (d & E & I). destruct (wf_fields _ _ W E) as [_ F]. eauto.
Qed.

Lemma child_fun v k x y : wf v -> child v k x -> child v k y -> x = y.
Proof.
  intros W A B. apply (leads_fun v [k]); [assumption| |]; (eapply leads_down; [|constructor]); assumption.
Qed.

Lemma descend_complete ks last_k item : wf item -> (forall k, In k ks -> split dot k = [k]) ->
  complete_but_last item (ks ++ [last_k]) ->
  exists x, descend item ks = Ok x /\ leads item ks x /\ container x /\ wf x.
Proof.
  revert item; induction ks as [|k ks IH]; intros item W S C; simpl in *.
  - exists item. repeat split; auto. constructor.
  - assert (C' : container item /\ exists x, child item k x /\ complete_but_last x (ks ++ [last_k])).
    { destruct (ks ++ [last_k])%list eqn:E; [destruct ks; discriminate|]. exact C. }
    destruct C' as (CI & x & CH & CX).
    apply child_fields in CH as (d & E & I).
    destruct (wf_fields _ _ W E) as [N F].
    rewrite (hasmember_fields _ _ _ E). cbn [bind].
    replace (mem String.eqb k d) with true by (symmetry; apply mem_In; eauto).
    rewrite getmember_one by (apply S; now left). rewrite (getmember_inner_fields _ _ _ _ E).
    rewrite (In_get_val _ _ _ N I). cbn [bind].
    destruct (IH x (F _ _ I) ltac:(intros; apply S; now right) CX) as (y & D & L & K & WY).
    exists y. repeat split; auto. econstructor; [apply child_fields; eauto|assumption].
Qed.

Lemma agrees_spec x value :
  (match value with VTuple l => existsb (fun y => veq x y) l | _ => veq x value end = true) <-> agrees x value.
Proof. destruct value; simpl; try reflexivity. rewrite existsb_exists. reflexivity. Qed.

Lemma satisfies_value_eq x value :
  match value with VTuple l => Ok (existsb (fun y => veq x y) l) | _ => Ok (veq x value) end
  = Ok (match value with VTuple l => existsb (fun y => veq x y) l | _ => veq x value end).
Proof. now destruct value. Qed.

Lemma leads_app v a b x : leads v (a ++ b) x <-> exists y, leads v a y /\ leads y b x.
Proof.
  revert v; induction a as [|k a IH]; intros v; simpl.
  - split; [intros H; exists v; split; [constructor|assumption]|intros (y & H & H'); inversion H; subst; assumption].
  - split.
    + intros H; inversion H; subst. apply IH in H5 as (y & A & B). exists y. split; [econstructor; eassumption|assumption].
    + intros (y & A & B). inversion A; subst. econstructor; [eassumption|]. apply IH. eauto.
Qed.

Lemma satisfies_complete item key value : wf item -> complete_but_last item (split dot key) ->
  exists b, satisfies item key value = Ok b /\
    (b = true <-> exists x, leads item (split dot key) x /\ agrees x value).
Proof.
  intros W C. unfold satisfies.
  pose proof (removelast_last (split dot key) "" (split_nonempty dot key)) as E.
  set (ks := removelast (split dot key)) in *. set (k := last (split dot key) "") in *.
  assert (S : forall k', In k' ks -> split dot k' = [k']).
  { intros k' I. apply (split_part key). rewrite E. apply in_or_app. now left. }
  assert (Sk : split dot k = [k]).
  { apply (split_part key). rewrite E. apply in_or_app. right. now left. }
  rewrite E in C. destruct (descend_complete ks k item W S C) as (x & D & L & K & WX).
  rewrite D. cbn [bind]. apply container_fields in K as (d & Ed). destruct (wf_fields _ _ WX Ed) as [N F].
  rewrite (hasmember_fields _ _ _ Ed). cbn [bind].
  rewrite E. destruct (mem String.eqb k d) eqn:M.
  - apply mem_get in M as (y & G). rewrite getmember_one by assumption. rewrite (getmember_inner_fields _ _ _ _ Ed), G. cbn [bind].
    rewrite satisfies_value_eq. eexists; split; [reflexivity|]. rewrite agrees_spec. split.
    + intros A. exists y. split; [|assumption]. apply leads_app. exists x. split; [assumption|].
      econstructor; [|constructor]. apply child_fields. eauto using get_In_val.
    + intros (y' & L' & A). apply leads_app in L' as (x' & L1 & L2).
      assert (x' = x) by (eapply (leads_fun item); eassumption); subst x'.
      inversion L2; subst. inversion H4; subst. apply child_fields in H2 as (d' & Ed' & I).
      assert (d' = d) by congruence; subst d'. apply In_get_val in I; [|assumption]. congruence.
  - eexists; split; [reflexivity|]. split; [discriminate|].
    intros (y' & L' & A). apply leads_app in L' as (x' & L1 & L2).
    assert (x' = x) by (eapply (leads_fun item); eassumption); subst x'.
    inversion L2; subst. inversion H4; subst. apply child_fields in H2 as (d' & Ed' & I).
    assert (d' = d) by congruence; subst d'. assert (mem String.eqb k d = true) by (apply mem_In; eauto). congruence.
Qed.

Lemma satisfies_all_complete item params : wf item ->
  (forall key value, In (key, value) params -> complete_but_last item (split dot key)) ->
  exists b, satisfies_all item params = Ok b /\ (b = true <-> matches item params).
Proof.
  intros W; induction params as [|[key value] params IH]; intros C; simpl.
  - exists true. split; [reflexivity|]. split; [|reflexivity]. intros _ ? ? ? [].
  - destruct (satisfies_complete item key value W (C _ _ (or_introl eq_refl))) as (b & -> & B). cbn [bind].
    destruct IH as (b' & -> & B'); [intros; eapply C; right; eassumption|].
    destruct b.
    + exists b'. split; [reflexivity|]. rewrite B'. split.
      * intros M k v ks [E|I] Sp; [|eauto]. injection E as -> ->. apply spells_split in Sp. subst ks. now apply B.
      * intros M k v ks I Sp. eapply M; [right; eassumption|assumption].
    + exists false. split; [reflexivity|]. split; [discriminate|].
      intros M. apply B. apply (M key value); [now left|]. now apply spells_split.
Qed.

Lemma find_loop_complete items params :
  (forall it, In it items -> wf it) ->
  (forall it key value, In it items -> In (key, value) params -> complete_but_last it (split dot key)) ->
  exists r, find_loop items params = Ok r /\ first_match items params r.
Proof.
  induction items as [|it items IH]; intros W C; simpl.
  - exists None. split; [reflexivity|]. intros x [].
  - destruct (satisfies_all_complete it params (W _ (or_introl eq_refl)) (fun k v I => C it k v (or_introl eq_refl) I)) as (b & -> & B).
    cbn [bind]. destruct b.
    + exists (Some it). split; [reflexivity|]. exists [], items. repeat split; [now apply B|intros x []].
    + destruct IH as (r & -> & F); [intros; apply W; now right|intros; eapply C; [right|]; eassumption|].
      exists r. split; [reflexivity|]. assert (NM : ~ matches it params) by (intros M; apply B in M; discriminate).
      destruct r as [x|]; simpl in *.
      * destruct F as (l1 & l2 & -> & M & N). exists (it :: l1), l2. repeat split; [assumption|]. intros y [<-|I]; auto.
      * intros y [<-|I]; auto.
Qed.

(** ** pop_by *)
Lemma find_loop_split items params it : find_loop items params = Ok (Some it) ->
  exists l1 l2, items = (l1 ++ it :: l2)%list /\ satisfies_all it params = Ok true /\
    forall x, In x l1 -> satisfies_all x params = Ok false.
Proof.
  induction items as [|x items IH]; simpl; [discriminate|].
  destruct (satisfies_all x params) as [[]|] eqn:E; simpl; [| |discriminate].
  - intros H; injection H as <-. exists [], items. repeat split; auto. intros y [].
  - intros H. destruct (IH H) as (l1 & l2 & -> & S & N). exists (x :: l1), l2. repeat split; auto. intros y [<-|I]; auto.
Qed.

Lemma veq_fields a b d : veq a b = true -> fields_of b = Some d ->
  exists e, fields_of a = Some e /\ length e = length d /\ dict_le e d.
Proof.
  intros V E. destruct b; try discriminate; injection E as <-; destruct a; try discriminate V.
  - apply veq_dict in V as [L V]. simpl; eauto.
  - apply veq_obj in V as (_ & L & V). simpl; eauto.
Qed.

Lemma veq_member a b d k y : wf a -> wf b -> veq a b = true -> fields_of b = Some d ->
  (get String.eqb k d = Some y -> exists e x, fields_of a = Some e /\ get String.eqb k e = Some x /\ veq x y = true /\ wf x /\ wf y) /\
  (mem String.eqb k d = false -> exists e, fields_of a = Some e /\ mem String.eqb k e = false).
Proof.
  intros Wa Wb V E. destruct (veq_fields a b d V E) as (e & Ee & L & D).
  destruct (wf_fields _ _ Wa Ee) as [Ne Fe]. destruct (wf_fields _ _ Wb E) as [Nd Fd]. split.
  - intros G. assert (K : In k (map fst e)).
    { apply (dict_le_keys e d Ne L D). apply in_map_iff. exists (k, y). auto using get_In_val. }
    apply in_map_iff in K as ([k' x] & Ek & I). simpl in Ek; subst k'.
    exists e, x. repeat split; auto.
    + now apply In_get_val.
    + destruct (D _ _ I) as (y' & G' & V'). congruence.
    + eauto.
    + eapply Fd. eapply get_In_val. eassumption.
  - intros M. exists e. split; [assumption|]. destruct (mem String.eqb k e) eqn:M'; [|reflexivity].
    apply mem_In in M' as [x I]. destruct (D _ _ I) as (y' & G' & _).
    unfold mem in M. rewrite G' in M. discriminate.
Qed.

Lemma descend_veq ks : forall a b y, (forall k, In k ks -> split dot k = [k]) -> wf a -> wf b -> veq a b = true ->
  descend b ks = Ok y -> container y ->
  exists x, descend a ks = Ok x /\ veq x y = true /\ wf x /\ wf y.
Proof.
  induction ks as [|k ks IH]; intros a b y S Wa Wb V H C; simpl in *.
  - injection H as <-. exists a. auto.
  - destruct (hasmember b k) as [hb|] eqn:Hb; simpl in H; [|discriminate].
    rewrite getmember_one in H by (apply S; now left).
    destruct hb.
    + destruct (getmember_inner b k None) as [sub|] eqn:G; simpl in H; [|discriminate].
      apply getmember_inner_ok in G as (d & E & G).
      destruct (proj1 (veq_member a b d k sub Wa Wb V E) G) as (e & x & Ee & Gx & Vx & Wx & Ws).
      rewrite (hasmember_fields _ _ _ Ee). simpl. unfold mem. rewrite Gx.
      rewrite getmember_one by (apply S; now left). rewrite (getmember_inner_fields _ _ _ _ Ee), Gx. simpl.
      eapply IH; eauto.
    + injection H as <-. apply container_fields in C as (d & E).
      rewrite (hasmember_fields _ _ _ E) in Hb. injection Hb as Hb.
      destruct (proj2 (veq_member a b d k VNone Wa Wb V E) Hb) as (e & Ee & Me).
      rewrite (hasmember_fields _ _ _ Ee), Me. simpl. exists a. auto.
Qed.

Lemma satisfies_true_container item key value : satisfies item key value = Ok true ->
  exists y d x, descend item (removelast (split dot key)) = Ok y /\ fields_of y = Some d /\
    get String.eqb (last (split dot key) "") d = Some x /\ agrees x value.
Proof.
  unfold satisfies. intros H.
  assert (Sk : split dot (last (split dot key) "") = [last (split dot key) ""]).
  { apply (split_part key). rewrite (removelast_last (split dot key) "" (split_nonempty dot key)) at 2. apply in_or_app. right; now left. }
  destruct (descend item _) as [y|] eqn:D; simpl in H; [|discriminate].
  destruct (hasmember y _) as [[]|] eqn:M; simpl in H; try discriminate.
  rewrite getmember_one in H by assumption.
  destruct (getmember_inner y _ None) as [x|] eqn:G; simpl in H; [|discriminate].
  apply getmember_inner_ok in G as (d & E & G). rewrite satisfies_value_eq in H. injection H as H. apply agrees_spec in H.
  exists y, d, x. auto.
Qed.

Lemma satisfies_veq a b key value : wf a -> wf b -> veq a b = true -> satisfies b key value = Ok true -> satisfies a key value = Ok true.
Proof.
  intros Wa Wb V H. apply satisfies_true_container in H as (y & d & x & D & E & G & A).
  assert (S : forall k', In k' (removelast (split dot key)) -> split dot k' = [k']).
  { intros k' I. apply (split_part key). rewrite (removelast_last (split dot key) "" (split_nonempty dot key)). apply in_or_app. now left. }
  assert (Sk : split dot (last (split dot key) "") = [last (split dot key) ""]).
  { apply (split_part key). rewrite (removelast_last (split dot key) "" (split_nonempty dot key)) at 2. apply in_or_app. right; now left. }
  destruct (descend_veq _ a b y S Wa Wb V D ltac:(apply container_fields; eauto)) as (y' & D' & Vy & Wy' & Wy).
  unfold satisfies. rewrite D'. simpl.
  destruct (proj1 (veq_member y' y d _ x Wy' Wy Vy E) G) as (e & x' & Ee & Gx & Vx & _ & _).
  rewrite (hasmember_fields _ _ _ Ee). unfold mem. rewrite Gx. simpl.
  rewrite getmember_one by assumption. rewrite (getmember_inner_fields _ _ _ _ Ee), Gx. simpl. rewrite satisfies_value_eq. f_equal.
  apply agrees_spec. destruct value; simpl in *; try (eapply veq_trans; eassumption).
  destruct A as (z & I & Q). exists z. split; [assumption|]. eapply veq_trans; eassumption.
Qed.

Lemma satisfies_all_veq a b params : wf a -> wf b -> veq a b = true -> satisfies_all b params = Ok true -> satisfies_all a params = Ok true.
Proof.
  intros Wa Wb V. induction params as [|[k v] params IH]; simpl; [auto|].
  destruct (satisfies b k v) as [[]|] eqn:E; simpl; try discriminate. intros H.
  rewrite (satisfies_veq a b k v Wa Wb V E). simpl. auto.
Qed.

Lemma satisfies_truthy item key value : satisfies item key value = Ok true -> truthy item = true.
Proof.
  intros H. apply satisfies_true_container in H as (y & d & x & D & E & G & _).
  destruct (removelast (split dot key)) as [|k ks]; simpl in D.
  - injection D as <-. destruct item; try discriminate; injection E as <-; [|reflexivity]. destruct d0; [discriminate G|reflexivity].
  - destruct (hasmember item k) as [[]|] eqn:M; simpl in D; [| |discriminate].
    + destruct item as [s| | | | | |d'|]; simpl in M; try discriminate M; try reflexivity.
      * destruct s; try discriminate M. unfold getmember in D. destruct (split dot k) eqn:SK; [now apply split_nonempty in SK|]. simpl in D. discriminate.
      * destruct l; [discriminate|reflexivity].
      * destruct l; [discriminate|reflexivity].
      * destruct d'; [discriminate|reflexivity].
    + injection D as <-. destruct item; try discriminate; injection E as <-; [|reflexivity]. destruct d0; [discriminate G|reflexivity].
Qed.

Lemma index_of_app l1 it l2 : wf it -> (forall x, In x l1 -> veq x it = false) ->
  index_of it (l1 ++ it :: l2) = Some (length l1).
Proof.
  intros W. induction l1 as [|x l1 IH]; intros H; simpl.
  - now rewrite veq_refl.
  - rewrite (H x) by now left. rewrite IH; [reflexivity|]. intros; apply H; now right.
Qed.

Lemma remove_nth_app {A} (l1 : list A) x l2 : remove_nth (length l1) (l1 ++ x :: l2) = (l1 ++ l2)%list.
Proof. induction l1 as [|y l1 IH]; simpl; [reflexivity|]. now rewrite IH. Qed.

Lemma pop_by_found l params it : params <> [] -> (forall x, In x l -> wf x) ->
  find_by (VList l) params = Ok (Some it) ->
  exists l1 l2, l = (l1 ++ it :: l2)%list /\ pop_by l params = Ok ((l1 ++ l2)%list, Some it) /\
     (forall x, In x l1 -> satisfies_all x params = Ok false) /\ satisfies_all it params = Ok true.
Proof.
  intros NE W F. pose proof F as F'. simpl in F'. apply find_loop_split in F' as (l1 & l2 & -> & S & N).
  exists l1, l2. split; [reflexivity|]. split; [|auto].
  unfold pop_by. rewrite F. simpl.
  assert (T : truthy it = true).
  { destruct params as [|[k v] params]; [congruence|]. simpl in S.
    destruct (satisfies it k v) as [[]|] eqn:E; simpl in S; try discriminate. eapply satisfies_truthy; eassumption. }
  assert (Wi : wf it) by (apply W; apply in_or_app; right; now left).
  rewrite T, index_of_app; [|assumption|].
  - now rewrite remove_nth_app.
  - intros x I. destruct (veq x it) eqn:V; [|reflexivity]. exfalso.
    assert (Wx : wf x) by (apply W; apply in_or_app; now left).
    pose proof (satisfies_all_veq x it params Wx Wi V S). rewrite (N x I) in H. discriminate.
Qed.

(** ** group_by *)
Lemma hashable_veq_eq a : forall b, hashable a = true -> (veq a b = true <-> a = b).
Proof.
  induction a using val_ind'; intros b Hh; try discriminate Hh; destruct b; try (split; [discriminate|congruence]).
  - simpl. rewrite scalar_eqb_eq. split; congruence.
  - simpl. rewrite Z.eqb_eq. split; congruence.
  - simpl. rewrite Z.eqb_eq. split; congruence.
  - simpl. rewrite Nat.eqb_eq. split; congruence.
  - rewrite veq_tuple. simpl in Hh. rewrite forallb_forall in Hh. split.
    + intros Q. f_equal. induction Q; [reflexivity|]. inversion H; subst. f_equal.
      * apply H3; [apply Hh; now left|assumption].
      * apply IHQ; [assumption|]. intros; apply Hh; now right.
    + intros Q; injection Q as <-. induction l; constructor.
      * inversion H; subst. apply H2; [apply Hh; now left|reflexivity].
      * inversion H; subst. apply IHl; [assumption|]. intros; apply Hh; now right.
Qed.

Definition val_eq_dec : forall a b : val, {a = b} + {a <> b}.
Proof.
  fix IH 1. intros a b.
  assert (DL : forall l m : list val, {l = m} + {l <> m}).
  { fix IHl 1. intros [|x l] [|y m]; try (left; congruence) || (right; congruence).
    destruct (IH x y) as [->|]; [|right; congruence]. destruct (IHl l m) as [->|]; [now left|right; congruence]. }
  assert (DD : forall l m : list (string * val), {l = m} + {l <> m}).
  { fix IHl 1. intros [|[k x] l] [|[k' y] m]; try (left; congruence) || (right; congruence).
    destruct (string_dec k k') as [->|]; [|right; congruence].
    destruct (IH x y) as [->|]; [|right; congruence]. destruct (IHl l m) as [->|]; [now left|right; congruence]. }
  destruct a as [s|t|t|n|l|l|d|c d], b as [s'|t'|t'|n'|l'|l'|d'|c' d']; try (right; congruence).
  - destruct (scalar_eq_dec s s'); [left|right]; congruence.
  - destruct (Z.eq_dec t t'); [left|right]; congruence.
  - destruct (Z.eq_dec t t'); [left|right]; congruence.
  - destruct (Nat.eq_dec n n'); [left|right]; congruence.
  - destruct (DL l l'); [left|right]; congruence.
  - destruct (DL l l'); [left|right]; congruence.
  - destruct (DD d d'); [left|right]; congruence.
  - destruct (string_dec c c'); [|right; congruence]. destruct (DD d d'); [left|right]; congruence.
Defined.

(** ** Groupings *)
Section Grouping.
Context {K A : Type} (dec : forall a b : K, {a = b} + {a <> b}) (eqb : K -> K -> bool).

Lemma occurrences_snoc (l : list K) k : occurrences dec (l ++ [k]) = if in_dec dec k l then occurrences dec l else (occurrences dec l ++ [k])%list.
Proof.
  unfold occurrences. rewrite rev_app_distr. simpl.
  destruct (in_dec dec k (rev l)) as [I|I], (in_dec dec k l) as [J|J]; try reflexivity.
  - exfalso. apply J. now apply in_rev.
  - exfalso. apply I. now apply -> in_rev.
Qed.

Lemma occurrences_In (l : list K) k : In k (occurrences dec l) <-> In k l.
Proof. unfold occurrences. rewrite <- in_rev, nodup_In, <- in_rev. reflexivity. Qed.

Lemma occurrences_NoDup (l : list K) : NoDup (occurrences dec l).
Proof. unfold occurrences. apply NoDup_rev, NoDup_nodup. Qed.

Lemma get_key_In k (g : list (K * list A)) : (forall b, eqb k b = true <-> k = b) ->
  match get eqb k g with Some l => In (k, l) g | None => ~ In k (map fst g) end.
Proof.
  intros E. induction g as [|[k' l'] g IH]; simpl; [auto|].
  destruct (eqb k k') eqn:Q.
  - apply E in Q as <-. now left.
  - destruct (get eqb k g); [now right|]. intros [->|I]; [|auto]. rewrite (proj2 (E k) eq_refl) in Q. discriminate.
Qed.

Lemma set_keys k l (g : list (K * list A)) : (forall b, eqb k b = true <-> k = b) ->
  map fst (set eqb k l g) = if in_dec dec k (map fst g) then map fst g else (map fst g ++ [k])%list.
Proof.
  intros E. induction g as [|[k' l'] g IH]; [reflexivity|]. cbn [set].
  destruct (eqb k k') eqn:Q.
  - apply E in Q as <-. cbn [map fst]. destruct (in_dec dec k (k :: map fst g)) as [I|I]; [reflexivity|]. exfalso; apply I; now left.
  - cbn [map fst]. rewrite IH.
    destruct (in_dec dec k (map fst g)) as [I|I], (in_dec dec k (k' :: map fst g)) as [J|J]; try reflexivity.
    + exfalso; apply J; now right.
    + destruct J as [->|J]; [|contradiction]. rewrite (proj2 (E k) eq_refl) in Q. discriminate.
Qed.

Lemma set_In k l (g : list (K * list A)) k' l' : (forall b, eqb k b = true <-> k = b) -> NoDup (map fst g) ->
  In (k', l') (set eqb k l g) -> (k' = k /\ l' = l) \/ (k' <> k /\ In (k', l') g).
Proof.
  intros E. induction g as [|[k2 l2] g IH]; simpl; intros N I.
  - destruct I as [I|[]]. injection I as <- <-. auto.
  - inversion N; subst. destruct (eqb k k2) eqn:Q.
    + apply E in Q as <-. destruct I as [I|I]; [injection I as <- <-; auto|].
      right. split; [|auto]. intros ->. apply H1. apply in_map_iff. now exists (k, l').
    + destruct I as [I|I].
      * injection I as <- <-. right. split; [|auto]. intros ->. rewrite (proj2 (E k) eq_refl) in Q. discriminate.
      * destruct (IH H2 I) as [?|[? ?]]; auto.
Qed.

Lemma grouping_nil : grouping dec (@nil (K * A)) [].
Proof. split; [reflexivity|]. intros ? ? []. Qed.

Lemma grouping_add pairs (g : list (K * list A)) k a : (forall b, eqb k b = true <-> k = b) ->
  grouping dec pairs g ->
  grouping dec (pairs ++ [(k, a)])%list (set eqb k ((match get eqb k g with Some l => l | None => [] end) ++ [a])%list g).
Proof.
  intros E [KS MS]. split.
  - rewrite set_keys by assumption. rewrite map_app. simpl. rewrite occurrences_snoc, KS.
    destruct (in_dec dec k (occurrences dec (map fst pairs))) as [I|I], (in_dec dec k (map fst pairs)) as [J|J]; try reflexivity.
    + exfalso. apply J. now apply occurrences_In.
    + exfalso. apply I. now apply occurrences_In.
  - intros k' l' I. apply set_In in I; [|assumption|rewrite KS; apply occurrences_NoDup].
    rewrite filter_app, map_app. destruct I as [[-> ->]|[N I]].
    + simpl. destruct (dec k k) as [_|C]; [|congruence]. simpl. f_equal.
      pose proof (get_key_In k g E) as G. destruct (get eqb k g) as [l|]; [now apply MS|].
      rewrite KS, occurrences_In in G. symmetry.
      rewrite filter_none; [reflexivity|]. intros [k2 a2] I2. simpl. destruct (dec k k2) as [<-|]; [|reflexivity].
      exfalso. apply G. apply in_map_iff. now exists (k, a2).
    + simpl. destruct (dec k' k); [congruence|]. simpl. rewrite app_nil_r. now apply MS.
Qed.

Lemma grouping_nonempty pairs (g : list (K * list A)) k l : grouping dec pairs g -> In (k, l) g -> l <> [].
Proof.
  intros [KS MS] I E. rewrite (MS _ _ I) in E. assert (J : In k (map fst pairs)).
  { apply (occurrences_In). rewrite <- KS. apply in_map_iff. now exists (k, l). }
  apply in_map_iff in J as ([k' a] & <- & J). simpl in *. apply map_eq_nil in E.
  assert (X : In (k', a) (filter (fun p => if dec k' (fst p) then true else false) pairs)).
  { apply filter_In. split; [assumption|]. simpl. now destruct (dec k' k'). }
  rewrite E in X. contradiction.
Qed.

Lemma grouping_unique pairs (g h : list (K * list A)) : grouping dec pairs g -> grouping dec pairs h -> g = h.
Proof.
  intros [KG MG] [KH MH]. assert (KK : map fst g = map fst h) by congruence. clear KG KH.
  revert h KK MH; induction g as [|[k l] g IH]; intros [|[k' l'] h] KK MH; try discriminate; [reflexivity|].
  injection KK as <- KK. f_equal.
  - f_equal. rewrite (MG k l (or_introl eq_refl)), (MH k l' (or_introl eq_refl)). reflexivity.
  - apply IH; auto; intros; [apply MG|apply MH]; now right.
Qed.
End Grouping.

(** ** group_by *)
Lemma dict_get_ok v k x : wf v -> dict_get v k = Ok x -> exists d, v = VDict d /\ (In (k, x) d \/ (~ In k (map fst d) /\ x = VNone)) /\ wf x.
Proof.
  destruct v; simpl; try discriminate. intros W H. injection H as <-. exists d. split; [reflexivity|].
  destruct (get String.eqb k d) as [x|] eqn:G.
  - split; [left; eauto using get_In_val|]. eapply wf_dict_get; eassumption.
  - split; [|exact I]. right. split; [|reflexivity]. intros J. apply in_map_iff in J as ([k' y] & E & J). simpl in E; subst k'.
    assert (M : mem String.eqb k d = true) by (apply mem_In; eauto). unfold mem in M. rewrite G in M. discriminate.
Qed.

Lemma dict_get_path v ks x : wf v -> (foldM dict_get ks v = Ok x <-> dict_path v ks x).
Proof.
  revert v; induction ks as [|k ks IH]; intros v W; simpl.
  - split; [intros H; injection H as <-; constructor|intros H; inversion H; reflexivity].
  - split.
    + destruct (dict_get v k) as [y|] eqn:G; simpl; [|discriminate]. intros H.
      apply dict_get_ok in G as (d & -> & [I|[N ->]] & Wy); [| |assumption].
      * eapply dp_present; [eassumption|]. now apply IH.
      * apply dp_absent; [assumption|]. now apply IH.
    + intros H. inversion H; subst; simpl.
      * rewrite (In_get_val k d x0) by (assumption || apply W). simpl. apply IH; [|assumption].
        destruct (wf_fields (VDict d) d W eq_refl) as [_ F]. eauto.
      * destruct (get String.eqb k d) eqn:G.
        -- exfalso. apply H3. apply in_map_iff. exists (k, v). split; [reflexivity|]. now apply get_In_val.
        -- simpl. now apply IH.
Qed.

Lemma group_by_loop list_ key : forall g0 pairs g, (forall it, In it list_ -> wf it) -> grouping val_eq_dec pairs g0 ->
  foldM (fun grouped item =>
    bind (foldM dict_get (split dot key) item) (fun value =>
    if hashable value then
      match get veq value grouped with
      | None => Ok (set veq value [item] (grouped))
      | Some g => Ok (set veq value (g ++ [item])%list grouped)
      end
    else Raise TypeError)) list_ g0 = Ok g ->
  exists vs, Forall2 (fun it v => dict_path it (split dot key) v /\ hashable v = true) list_ vs /\ grouping val_eq_dec (pairs ++ combine vs list_)%list g.
Proof.
  induction list_ as [|it l IH]; intros g0 pairs g W G H; simpl in H.
  - injection H as <-. exists []. rewrite app_nil_r. split; [constructor|assumption].
  - destruct (foldM dict_get (split dot key) it) as [v|] eqn:E; simpl in H; [|discriminate].
    destruct (hashable v) eqn:Hh; simpl in H; [|discriminate].
    apply dict_get_path in E; [|apply W; now left].
    pose proof (grouping_add val_eq_dec veq pairs g0 v it (fun b => hashable_veq_eq v b Hh) G) as G'.
    destruct (get veq v g0) as [old|]; simpl in H;
      (destruct (IH _ _ _ ltac:(intros; apply W; now right) G' H) as (vs & F & GG); exists (v :: vs); split; [constructor; auto|];
       simpl; rewrite <- app_assoc in GG; exact GG).
Qed.

Lemma group_by_ok list_ key vs : (forall it, In it list_ -> wf it) ->
  Forall2 (fun it v => dict_path it (split dot key) v /\ hashable v = true) list_ vs ->
  exists g, group_by list_ key = Ok g.
Proof.
  unfold group_by. generalize (@nil (val * list val)). intros g0 W F. revert g0.
  induction F as [|it v l vs [P Hh] F IH]; intros g0; simpl; [eauto|].
  apply dict_get_path in P; [|apply W; now left]. rewrite P. simpl. rewrite Hh.
  destruct (get veq v g0); simpl; apply IH; intros; apply W; now right.
Qed.

(** ** Targets *)
Lemma group_targets_pairs ts : group_targets_by_type ts =
  fold_left (fun tbt '(key, value) => set String.eqb key ((match get String.eqb key tbt with Some l => l | None => [] end) ++ [value])%list tbt)
    (target_pairs ts) [].
Proof.
  unfold group_targets_by_type, target_pairs. generalize (@nil (string * list scalar)).
  induction ts as [|t ts IH]; intros g; simpl; [reflexivity|].
  rewrite filter_app, fold_left_app, <- IH. f_equal.
  clear. revert g. induction t as [|[k v] t IH]; intros g; simpl; [reflexivity|].
  rewrite IH. unfold scalar_eqb. destruct (scalar_eq_dec v SNone); reflexivity.
Qed.

Lemma group_pairs_grouping l : forall pairs g, grouping string_dec pairs g ->
  grouping string_dec (pairs ++ l)%list
   (fold_left (fun tbt '(key, value) => set String.eqb key ((match get String.eqb key tbt with Some l => l | None => [] end) ++ [value])%list tbt) l g : dict string (list scalar)).
Proof.
  induction l as [|[k v] l IH]; intros pairs g G; simpl.
  - now rewrite app_nil_r.
  - replace (pairs ++ (k, v) :: l)%list with ((pairs ++ [(k, v)]) ++ l)%list by (rewrite <- app_assoc; reflexivity).
    apply IH. apply grouping_add; [|assumption]. intros b. apply String.eqb_eq.
Qed.

Lemma group_targets_grouping ts : grouping string_dec (target_pairs ts) (group_targets_by_type ts).
Proof. rewrite group_targets_pairs. apply (group_pairs_grouping _ [] []). apply grouping_nil. Qed.

(** A dict of non-empty lists is the grouping of its own pairs. *)
Definition expand (d : list (string * list scalar)) : list (string * scalar) :=
  flat_map (fun '(k, l) => map (fun t => (k, t)) l) d.

Lemma expand_In d k v : In (k, v) (expand d) <-> exists l, In (k, l) d /\ In v l.
Proof.
  unfold expand. rewrite in_flat_map. split.
  - intros ([k' l] & I & J). apply in_map_iff in J as (t & E & J). injection E as <- <-. eauto.
  - intros (l & I & J). exists (k, l). split; [assumption|]. apply in_map_iff. eauto.
Qed.

Lemma filter_same_key k (l : list scalar) : map snd (filter (fun p : string * scalar => if string_dec k (fst p) then true else false) (map (fun t => (k, t)) l)) = l.
Proof. induction l as [|t l IH]; simpl; [reflexivity|]. destruct (string_dec k k); [|congruence]. simpl. now rewrite IH. Qed.

Lemma filter_other_key k k' (l : list scalar) : k <> k' -> filter (fun p : string * scalar => if string_dec k (fst p) then true else false) (map (fun t => (k', t)) l) = [].
Proof. intros N. induction l as [|t l IH]; simpl; [reflexivity|]. destruct (string_dec k k'); [congruence|assumption]. Qed.

Lemma expand_other k d : ~ In k (map fst d) -> filter (fun p : string * scalar => if string_dec k (fst p) then true else false) (expand d) = [].
Proof.
  intros N. apply filter_none. intros [k' v] I. simpl. destruct (string_dec k k') as [<-|]; [|reflexivity].
  exfalso. apply N. apply expand_In in I as (l & I & _). apply in_map_iff. now exists (k, l).
Qed.

Lemma occurrences_app_same (l : list string) k n : n <> 0 -> ~ In k l ->
  occurrences string_dec (l ++ repeat k n) = (occurrences string_dec l ++ [k])%list.
Proof.
  intros N K. destruct n as [|n]; [congruence|]. clear N. induction n as [|n IH].
  - simpl. rewrite occurrences_snoc. destruct (in_dec string_dec k l); [contradiction|reflexivity].
  - replace (repeat k (S (S n))) with (repeat k (S n) ++ [k])%list by (rewrite <- (repeat_cons (S n) k); reflexivity).
    rewrite app_assoc, occurrences_snoc, IH. destruct (in_dec string_dec k (l ++ repeat k (S n))) as [_|C]; [reflexivity|].
    exfalso. apply C. apply in_or_app. right. now left.
Qed.

Lemma expand_occurrences d : NoDup (map fst d) -> (forall k l, In (k, l) d -> l <> []) ->
  occurrences string_dec (map fst (expand d)) = map fst d.
Proof.
  induction d as [|[k l] d IH] using rev_ind; intros N NE; [reflexivity|].
  rewrite map_app in *. simpl in *. apply NoDup_remove in N as [N NI]. rewrite app_nil_r in *.
  assert (E : map fst (expand (d ++ [(k, l)])) = (map fst (expand d) ++ repeat k (length l))%list).
  { unfold expand. rewrite flat_map_app, map_app. simpl. rewrite app_nil_r. f_equal.
    clear. induction l as [|t l IHl]; simpl; [reflexivity|]. now rewrite IHl. }
  rewrite E, occurrences_app_same.
  - rewrite IH; [reflexivity|assumption|]. intros; eapply NE; apply in_or_app; left; eassumption.
  - assert (l <> []) by (eapply NE; apply in_or_app; right; now left). destruct l; simpl; congruence.
  - intros I. apply in_map_iff in I as ([k' v] & Ek & I). simpl in Ek; subst k'. apply expand_In in I as (l' & I & _).
    apply NI. apply in_map_iff. now exists (k, l').
Qed.

Lemma expand_grouping d : NoDup (map fst d) -> (forall k l, In (k, l) d -> l <> []) -> grouping string_dec (expand d) d.
Proof.
  intros N NE. split; [now rewrite expand_occurrences|].
  intros k l I. clear NE. induction d as [|[k' l'] d IH]; [contradiction|]. simpl in N. inversion N; subst.
  unfold expand. simpl. rewrite filter_app, map_app. fold (expand d).
  destruct I as [E|I].
  - injection E as -> ->. rewrite filter_same_key, expand_other by assumption. simpl. now rewrite app_nil_r.
  - rewrite filter_other_key; [|intros ->; apply H1; apply in_map_iff; now exists (k', l)]. simpl. now apply IH.
Qed.

Lemma ungroup_pairs (d : list (string * list scalar)) :
  concat (ungroup_targets_by_type (map (fun '(k, l) => (k, TList l)) d)) = expand d.
Proof.
  unfold ungroup_targets_by_type, expand. induction d as [|[k l] d IH]; simpl; [reflexivity|].
  rewrite concat_app, IH. f_equal. clear. induction l as [|t l IH]; simpl; [reflexivity|]. now rewrite IH.
Qed.

Lemma grouping_expand_perm (pairs : list (string * scalar)) g : grouping string_dec pairs g ->
  Permutation (expand g) pairs.
Proof.
  intros [KS MS].
  assert (EK : map fst g = occurrences string_dec (map fst pairs)) by assumption.
  assert (ND : NoDup (map fst g)) by (rewrite KS; apply occurrences_NoDup).
  assert (CV : forall p, In p pairs -> In (fst p) (map fst g)).
  { intros p I. rewrite KS. apply occurrences_In. now apply in_map. }
  clear KS EK. revert pairs MS CV. induction g as [|[k l] g IH]; intros pairs MS CV.
  - destruct pairs as [|p pairs]; [constructor|]. exfalso. apply (CV p). now left.
  - simpl in ND. inversion ND; subst.
    set (isk := fun p : string * scalar => if string_dec k (fst p) then true else false).
    assert (P : Permutation pairs (filter isk pairs ++ filter (fun p => negb (isk p)) pairs)).
    { clear. induction pairs as [|p pairs IHp]; simpl; [constructor|]. destruct (isk p); simpl; [now constructor|].
      eapply perm_trans; [apply perm_skip, IHp|]. apply Permutation_middle. }
    rewrite P. unfold expand. simpl. fold (expand g). apply Permutation_app.
    + rewrite (MS k l (or_introl eq_refl)). fold isk. apply Permutation_refl'.
      clear. subst isk. induction pairs as [|[k' v] pairs IHp]; simpl; [reflexivity|].
      destruct (string_dec k k') as [<-|]; simpl; [now rewrite IHp|assumption].
    + apply IH; [assumption| |].
      * intros k' l' I. rewrite (MS k' l' (or_intror I)). f_equal. rewrite filter_filter. apply filter_ext_in'.
        intros [k2 v] _. unfold isk; simpl. destruct (string_dec k' k2) as [->|]; [|now rewrite andb_false_r].
        destruct (string_dec k k2) as [->|]; [|reflexivity]. exfalso. apply H1. apply in_map_iff. now exists (k2, l').
      * intros p I. apply filter_In in I as [I Q]. destruct (CV p I) as [E|J]; [|assumption].
        unfold isk in Q. simpl in E. rewrite E in Q. destruct (string_dec (fst p) (fst p)); [discriminate|congruence].
Qed.

(** ** setmember *)
Definition put (v : val) (k : string) (x : val) : val :=
  match v with VDict d => VDict (set String.eqb k x d) | VObj c d => VObj c (set String.eqb k x d) | _ => v end.

Lemma put_fields v d k x : fields_of v = Some d -> fields_of (put v k x) = Some (set String.eqb k x d).
Proof. destruct v; try discriminate; intros E; injection E as <-; reflexivity. Qed.

Lemma put_child v k x k' y : container v -> wf v -> (child (put v k x) k' y <-> (k' = k /\ y = x) \/ (k' <> k /\ child v k' y)).
Proof.
  intros C W. apply container_fields in C as (d & E). destruct (wf_fields _ _ W E) as [N _].
  pose proof (nodup_set String.eqb String.eqb_eq k x d N) as N'.
  rewrite !child_fields. split.
  - intros (d' & E' & I). rewrite (put_fields _ _ _ _ E) in E'. injection E' as <-.
    apply In_get_val in I; [|exact N']. rewrite (get_set _ String.eqb_eq) in I.
    destruct (String.eqb_spec k' k) as [->|NE]; [left; split; congruence|].
    right. split; [assumption|]. exists d. split; [assumption|]. now apply get_In_val.
  - intros H. exists (set String.eqb k x d). split; [now apply put_fields|].
    apply get_In_val. rewrite (get_set _ String.eqb_eq). destruct H as [[-> ->]|[NE (d' & E' & I)]].
    + now rewrite String.eqb_refl.
    + destruct (String.eqb_spec k' k); [contradiction|]. assert (d' = d) by congruence; subst. now apply In_get_val.
Qed.

Lemma set_wf k x (d : list (string * val)) : wf (VDict d) -> wf x -> wf (VDict (set String.eqb k x d)).
Proof.
  intros [N F] Wx. split; [now apply (nodup_set String.eqb String.eqb_eq)|]. clear N.
  induction d as [|[k' v] d IH]; simpl; [auto|]. destruct F as [Fv F]. simpl in Fv. destruct (String.eqb k k'); simpl; auto.
Qed.

Lemma put_wf v k x : wf v -> wf x -> wf (put v k x).
Proof. intros W Wx. destruct v; simpl; auto; apply (set_wf k x) in W; auto. Qed.

(** The changed object: [assigned v ks x v'] says that [v'] is [v] with [x] at
    the end of [ks]. *)
Inductive assigned : val -> list string -> val -> val -> Prop :=
| as_last v k x : container v -> assigned v [k] x (put v k x)
| as_down v k sub ks x sub' : child v k sub -> ks <> [] -> assigned sub ks x sub' -> assigned v (k :: ks) x (put v k sub').

Lemma at_path_assigned ks : forall v k x v', wf v ->
  (at_path v ks (fun o => setmember_here o k x) = Ok v' <-> assigned v (ks ++ [k]) x v').
Proof.
  induction ks as [|m ks IH]; intros v k x v' W; simpl.
  - split.
    + intros H. assert (container v /\ v' = put v k x) as [C ->] by (destruct v; simpl in *; try discriminate; injection H as <-; auto). now constructor.
    + intros H; inversion H; subst; [destruct v; simpl in *; try contradiction; reflexivity|congruence].
  - split.
    + destruct (getmember_inner v m None) as [sub|] eqn:G; simpl; [|discriminate].
      apply getmember_inner_ok in G as (d & E & G). pose proof (get_In_val _ _ _ G) as I.
      destruct (wf_fields _ _ W E) as [N F].
      destruct (at_path sub ks _) as [sub'|] eqn:A; simpl; [|discriminate].
      apply IH in A; [|eauto]. intros H. assert (v' = put v m sub') as -> by (destruct v; simpl in *; try discriminate; congruence).
      econstructor; [apply child_fields; eauto|destruct ks; discriminate|assumption].
    + intros H; inversion H as [|? ? sub ? ? sub' CH NE AS]; subst; [destruct ks; discriminate|].
      apply child_fields in CH as (d & E & I). destruct (wf_fields _ _ W E) as [N F].
      rewrite (getmember_inner_fields _ _ _ _ E), (In_get_val _ _ _ N I). simpl.
      apply IH in AS; [|eauto]. rewrite AS. simpl. destruct v; try discriminate; reflexivity.
Qed.

Lemma setmember_assigned v key x v' : wf v -> (setmember v key x = Ok v' <-> assigned v (split dot key) x v').
Proof.
  intros W. unfold setmember. rewrite at_path_assigned by assumption.
  now rewrite <- (removelast_last (split dot key) "" (split_nonempty dot key)).
Qed.

Lemma assigned_wf v ks x v' : wf v -> wf x -> assigned v ks x v' -> wf v'.
Proof.
  intros W Wx H. induction H.
  - now apply put_wf.
  - apply put_wf; [assumption|]. apply IHassigned; [|assumption].
    apply child_fields in H as (d & E & I). destruct (wf_fields _ _ W E) as [_ F]. eauto.
Qed.

Lemma assigned_exists ks : forall v x, wf v -> ks <> [] ->
  ((exists v', assigned v ks x v') <-> complete_but_last v ks).
Proof.
  induction ks as [|k ks IH]; intros v x W NE; [congruence|]. destruct ks as [|k2 ks].
  - simpl. split; [intros (v' & H); inversion H; subst; [assumption|congruence]|]. intros C. eexists. now constructor.
  - change (complete_but_last v (k :: k2 :: ks)) with (container v /\ exists s, child v k s /\ complete_but_last s (k2 :: ks)). split.
    + intros (v' & H); inversion H as [|? ? sub ? ? sub' CH NE' AS]; subst. split; [inversion CH; exact I|]. exists sub. split; [assumption|].
      apply (IH sub x); [|discriminate|eauto]. apply child_fields in CH as (d & E & I). destruct (wf_fields _ _ W E) as [_ F]. eauto.
    + intros (C & s & CH & CL). apply (IH s x) in CL as (s' & A); [|
        apply child_fields in CH as (d & E & I); destruct (wf_fields _ _ W E) as [_ F]; eauto|discriminate].
      eexists. econstructor; [eassumption|discriminate|eassumption].
Qed.

(** Reading back. *)
Lemma assigned_read v ks x v' : wf v -> assigned v ks x v' -> leads v' ks x.
Proof.
  intros W H. induction H.
  - econstructor; [|constructor]. apply put_child; auto.
  - econstructor; [|apply IHassigned].
    + apply put_child; [inversion H; exact I|assumption|]. auto.
    + apply child_fields in H as (d & E & I). destruct (wf_fields _ _ W E) as [_ F]. eauto.
Qed.

(** Paths that neither extend nor are extended by the assigned one. *)
Lemma assigned_other v ks x v' qs y : wf v -> assigned v ks x v' ->
  (forall r, qs <> ks ++ r)%list -> (forall r, ks <> qs ++ r)%list -> (leads v' qs y <-> leads v qs y).
Proof.
  intros W H. revert qs. induction H; intros qs NP NQ.
  - destruct qs as [|q qs]; [exfalso; now apply (NQ [k])|].
    assert (q <> k) by (intros ->; now apply (NP qs)).
    split; intros L; inversion L; subst.
    + apply put_child in H4 as [[? _]|[_ ?]]; auto; [contradiction|]. econstructor; eassumption.
    + econstructor; [|eassumption]. apply put_child; auto.
  - assert (Cv : container v) by (inversion H; exact I).
    destruct qs as [|q qs]; [exfalso; now apply (NQ (k :: ks))|].
    assert (Ws : wf sub) by (apply child_fields in H as (d & E & I); destruct (wf_fields _ _ W E) as [_ F]; eauto).
    destruct (string_dec q k) as [->|N].
    + assert (S : leads sub' qs y <-> leads sub qs y).
      { apply IHassigned; [assumption| |]; intros r E; [apply (NP r)|apply (NQ r)]; simpl; congruence. }
      split; intros L; inversion L; subst.
      * apply put_child in H5 as [[_ ->]|[? _]]; auto; [|contradiction]. econstructor; [eassumption|]. now apply S.
      * assert (x0 = sub) by (apply (child_fun v k); assumption).
        subst x0. econstructor; [apply put_child; auto|]. now apply S.
    + split; intros L; inversion L; subst.
      * apply put_child in H5; [|assumption..]. destruct H5 as [[? _]|[_ CH]]; [contradiction|]. eapply leads_down; eassumption.
      * econstructor; [|eassumption]. apply put_child; auto.
Qed.

(** ** getmember / hasmember *)
Lemma getmember_leads v key x : wf v -> (getmember v key None = Ok x <-> leads v (split dot key) x).
Proof.
  unfold getmember. generalize (split dot key). intros ks. revert v; induction ks as [|k ks IH]; intros v W; simpl.
  - split; [intros H; injection H as <-; constructor|intros H; inversion H; reflexivity].
  - split.
    + destruct (getmember_inner v k None) as [s|] eqn:G; simpl; [|discriminate]. intros H.
      apply getmember_inner_ok in G as (d & E & G). pose proof (get_In_val _ _ _ G). destruct (wf_fields _ _ W E) as [_ F].
      econstructor; [apply child_fields; eauto|]. apply IH; eauto.
    + intros H; inversion H as [|? ? ? ? ? CH LL]; subst. apply child_fields in CH as (d & E & I). destruct (wf_fields _ _ W E) as [N F].
      rewrite (getmember_inner_fields _ _ _ _ E), (In_get_val _ _ _ N I). simpl. apply IH; eauto.
Qed.

Lemma getmember_default v key dflt : wf v -> complete_but_last v (split dot key) ->
  exists x, getmember v key (Some dflt) = Ok x /\
    (leads v (split dot key) x \/ (~ (exists y, leads v (split dot key) y) /\ x = dflt)).
Proof.
  unfold getmember. pose proof (split_nonempty dot key) as NE. revert NE. generalize (split dot key). intros ks NE. revert v; induction ks as [|k ks IH]; intros v W C; [congruence|].
  destruct ks as [|k2 ks].
  - simpl in *. apply container_fields in C as (d & E). destruct (wf_fields _ _ W E) as [N F].
    rewrite (getmember_inner_fields _ _ _ _ E). destruct (get String.eqb k d) as [x|] eqn:G; simpl.
    + exists x. split; [reflexivity|]. left. econstructor; [|constructor]. apply child_fields. eauto using get_In_val.
    + exists dflt. split; [reflexivity|]. right. split; [|reflexivity]. intros (y & L). inversion L as [|? ? ? ? ? CH LL]; subst.
      apply child_fields in CH as (d' & E' & I). assert (d' = d) by congruence; subst. apply In_get_val in I; [congruence|assumption].
  - change (complete_but_last v (k :: k2 :: ks)) with (container v /\ exists s, child v k s /\ complete_but_last s (k2 :: ks)) in C.
    destruct C as (C & s & CH & CL). pose proof CH as CH'. apply child_fields in CH' as (d & E & I). destruct (wf_fields _ _ W E) as [N F].
    destruct (IH ltac:(discriminate) s (F _ _ I) CL) as (x & G & L).
    exists x. split.
    + cbn [foldM] in *. rewrite (getmember_inner_fields _ _ _ _ E), (In_get_val _ _ _ N I). exact G.
    + destruct L as [L|[NL ->]]; [left; econstructor; eassumption|]. right. split; [|reflexivity].
      intros (y & L). apply NL. exists y. inversion L; subst.
      match goal with HC : child v k ?z, HL : leads ?z _ y |- _ => assert (z = s) by (apply (child_fun v k); assumption); subst z; exact HL end.
Qed.

Lemma hasmember_child v k : container v -> hasmember v k = Ok true <-> exists x, child v k x.
Proof.
  intros C. apply container_fields in C as (d & E). rewrite (hasmember_fields _ _ _ E). split.
  - intros H; injection H as H. apply mem_In in H as (x & I). exists x. apply child_fields. eauto.
  - intros (x & CH). apply child_fields in CH as (d' & E' & I). assert (d' = d) by congruence; subst. f_equal. apply mem_In. eauto.
Qed.
