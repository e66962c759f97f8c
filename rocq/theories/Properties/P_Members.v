(** C18-C22: searching, grouping and member access. *)
From Coq Require Import ZArith String Ascii List Bool Lia Permutation.
From Verif.Base Require Import Result Dict PyStr PyVal ListExtra.
From Verif.Model Require Import Members.
From Verif.Spec Require Import PathSpec.
From Verif.Proofs Require Import MembersProofs.
Import ListNotations.
Local Open Scope string_scope.

(** What find_by iterates over. *)
Definition elements (v : val) (items : list val) : Prop :=
  match v with VDict d => items = map snd d | VList l | VTuple l => items = l | _ => False end.

(** ** C18 *)

(** The property: for every structure made of dicts and objects along the
    searched paths, the first matching item. *)
Definition C18_full : Prop :=
  forall v items params, wf v -> elements v items ->
    (forall it key value ks, In it items -> In (key, value) params -> spells key ks -> containers_along it ks) ->
    exists r, find_by v params = Ok r /\ first_match items params r.

(** It fails: when a name on the way is missing, the search goes on from where
    it is, so {'c': 1} is found under the path 'a.c'. *)
Theorem C18_find_by_refuted : ~ C18_full.
Proof.
  intros H. specialize (H (VList [VDict [("c", VS (SInt 1))]]) [VDict [("c", VS (SInt 1))]] [("a.c", VS (SInt 1))]).
  destruct H as (r & F & M).
  - simpl. repeat split; repeat constructor; simpl; tauto.
  - reflexivity.
  - intros it key value ks [<-|[]] [E|[]] Sp. injection E as <- <-. apply spells_split in Sp. vm_compute in Sp. subst ks.
    split; [exact I|]. intros x C. inversion C as [? ? ? HI|]; subst. destruct HI as [HI|[]]. discriminate.
  - vm_compute in F. injection F as <-. destruct M as (l1 & l2 & E & M & _).
    destruct (M "a.c" (VS (SInt 1)) ["a"; "c"]) as (x & L & _); [now left|now apply spells_split|].
    clear E.
    apply (leads_app _ ["a"] ["c"]) in L as (y & L & _). inversion L as [|? ? ? ? ? CH LL]; subst.
    inversion CH as [? ? ? HI|]; subst. destruct HI as [HI|[]]. discriminate.
Qed.

(** What holds: when every name but the last exists in each item, find_by
    returns the first matching item, and None exactly when there is none. *)
Theorem C18_find_by_partial : forall v items params, wf v -> elements v items ->
  (forall it key value ks, In it items -> In (key, value) params -> spells key ks -> complete_but_last it ks) ->
  exists r, find_by v params = Ok r /\ first_match items params r.
Proof.
  intros v items params W E C.
  assert (Wi : forall it, In it items -> wf it).
  { intros it I. destruct v; simpl in E; try contradiction; subst items.
    - eapply wf_list_In; eassumption.
    - apply (wf_list_In l); assumption.
    - apply in_map_iff in I as ([k x] & <- & I). destruct (wf_fields _ _ W eq_refl) as [_ F]. simpl. eauto. }
  destruct (find_loop_complete items params Wi) as (r & F & M).
  - intros it key value I J. apply (C it key value); [assumption..|]. now apply spells_split.
  - exists r. split; [|assumption]. destruct v; simpl in E; try contradiction; subst items; exact F.
Qed.

Example C18_example :
  find_by (VDict [("x", VDict [("a", VObj "T" [("b", VS (SInt 1)); ("c", VStr "u")])]);
                  ("y", VDict [("a", VObj "T" [("b", VS (SInt 2)); ("c", VStr "v")])])])
          [("a.b", VTuple [VS (SInt 2); VS (SInt 3)]); ("a.c", VStr "v")]
  = Ok (Some (VDict [("a", VObj "T" [("b", VS (SInt 2)); ("c", VStr "v")])])).
Proof. vm_compute. reflexivity. Qed.

(** ** C19 *)
Theorem C19_pop_by : forall l params, params <> [] -> (forall x, In x l -> wf x) ->
  match find_by (VList l) params with
  | Raise e => pop_by l params = Raise e
  | Ok None => pop_by l params = Ok (l, None)
  | Ok (Some it) =>
    exists l1 l2, l = (l1 ++ it :: l2)%list /\ pop_by l params = Ok ((l1 ++ l2)%list, Some it)
  end.
Proof.
  intros l params NE W. destruct (find_by (VList l) params) as [[it|]|e] eqn:F.
  - destruct (pop_by_found l params it NE W F) as (l1 & l2 & E & P & _). eauto.
  - unfold pop_by. now rewrite F.
  - unfold pop_by. now rewrite F.
Qed.

(** Popping until nothing matches removes exactly the matching items (on
    items that have everything but the last name). *)
Fixpoint pop_all (n : nat) (l : list val) (params : list (string * val)) : result (list val) :=
  match n with
  | 0 => Ok l
  | S n => bind (pop_by l params) (fun '(l', r) => match r with Some _ => pop_all n l' params | None => Ok l' end)
  end.

Theorem C19_pop_all : forall l params, params <> [] -> (forall x, In x l -> wf x) ->
  (forall it key value ks, In it l -> In (key, value) params -> spells key ks -> complete_but_last it ks) ->
  exists l', pop_all (S (List.length l)) l params = Ok l' /\
    (forall x, In x l' <-> In x l /\ ~ matches x params).
Proof.
  intros l params NE. remember (List.length l) as n eqn:En. revert l En. induction n as [n IH] using (well_founded_induction Wf_nat.lt_wf). intros l En W C.
  assert (Q : exists r, find_by (VList l) params = Ok r /\ first_match l params r).
  { destruct (find_loop_complete l params W) as (r & F & M); [|exists r; split; assumption].
    intros it key value I J. eapply C; [eassumption..|]. now apply spells_split. }
  destruct Q as (r & F & M). pose proof (C19_pop_by l params NE W) as P. rewrite F in P.
  destruct r as [it|].
  - destruct P as (l1 & l2 & E & P). destruct M as (m1 & m2 & E' & Mi & N).
    destruct (pop_by_found l params it NE W F) as (k1 & k2 & E2 & P2 & N2 & S2).
    rewrite P in P2. apply (f_equal (fun x => match x with Ok (y, _) => y | _ => [] end)) in P2. simpl in P2.
    assert (LL : List.length (l1 ++ l2) < n). { rewrite E, app_length in En. simpl in En. rewrite app_length. lia. }
    assert (Sub : forall x, In x (l1 ++ l2)%list -> In x l). { intros x I. rewrite E. apply in_app_iff in I. apply in_app_iff. simpl. tauto. }
    destruct (IH _ LL (l1 ++ l2)%list eq_refl) as (l' & PA & HI); [auto|intros; eapply C; eauto|].
    exists l'. destruct n as [|n]; [lia|]. split.
    + change (pop_all (S (S n)) l params) with (bind (pop_by l params) (fun '(l', r) => match r with Some _ => pop_all (S n) l' params | None => Ok l' end)).
      rewrite P. cbn [bind]. clear IH.
      assert (Mono : forall k l0 l0' k', (k <= k')%nat -> (List.length l0 < k)%nat -> (forall x, In x l0 -> wf x) -> pop_all k l0 params = Ok l0' -> pop_all k' l0 params = Ok l0').
      { clear - NE. induction k as [|k IHk]; intros l0 l0' k' Hle Hlt W H; [lia|]. destruct k' as [|k']; [lia|]. cbn [pop_all] in *.
        pose proof (C19_pop_by l0 params NE W) as Q. destruct (find_by (VList l0) params) as [[x|]|e].
        - destruct Q as (a & b & Eab & Q). rewrite Q in *. cbn [bind] in *. apply IHk; [lia| | |assumption].
          + subst l0. rewrite app_length in *. simpl in Hlt. lia.
          + intros y I. apply W. subst l0. apply in_app_iff in I. apply in_app_iff. simpl. tauto.
        - rewrite Q in *. assumption.
        - rewrite Q in *. assumption. }
      eapply Mono; [| | |exact PA]; [lia|lia|auto].
    + intros x. rewrite HI, E, !in_app_iff. simpl. split; [tauto|].
      intros [[I|[<-|I]] NM]; tauto.
  - exists l. split; [cbn [pop_all]; rewrite P; reflexivity|]. intros x. split; [|tauto]. intros I. split; [assumption|]. now apply M.
Qed.

Example C19_example :
  pop_by [VDict [("a", VS (SInt 1))]; VDict [("a", VS (SInt 2))]; VDict [("a", VS (SInt 1))]] [("a", VS (SInt 1))]
  = Ok ([VDict [("a", VS (SInt 2))]; VDict [("a", VS (SInt 1))]], Some (VDict [("a", VS (SInt 1))])).
Proof. vm_compute. reflexivity. Qed.

(** ** C20 *)
Theorem C20_group_by : forall list_ key ks g, (forall it, In it list_ -> wf it) -> spells key ks ->
  (group_by list_ key = Ok g <->
   exists vs, Forall2 (fun it v => dict_path it ks v /\ hashable v = true) list_ vs /\
     grouping val_eq_dec (combine vs list_) g).
Proof.
  intros list_ key ks g W Sp. apply spells_split in Sp. subst ks. split.
  - intros H. unfold group_by in H. apply (group_by_loop list_ key [] []) in H; [assumption..|apply grouping_nil].
  - intros (vs & F & G). destruct (group_by_ok list_ key vs W F) as (h & H). rewrite H.
    pose proof H as H'. unfold group_by in H'. apply (group_by_loop list_ key [] []) in H' as (ws & F' & G'); [|assumption|apply grouping_nil].
    assert (vs = ws).
    { clear - F F' W. revert ws F'. induction F as [|it v l vs [P _] F IH]; intros ws F'; inversion F' as [|? w ? ws' [P' _] F2]; subst; [reflexivity|].
      f_equal; [|apply IH; auto; intros; apply W; now right].
      apply dict_get_path in P; [|apply W; now left]. apply dict_get_path in P'; [|apply W; now left]. congruence. }
    subst ws. f_equal. eapply grouping_unique; eassumption.
Qed.

(** A partition: no group is empty, every item is in the group of its value
    and in no other, and together the groups hold each item as often as the
    list does. *)
Theorem C20_partition : forall list_ key g, (forall it, In it list_ -> wf it) -> group_by list_ key = Ok g ->
  NoDup (map fst g) /\ (forall v l, In (v, l) g -> l <> []) /\
  Permutation (concat (map snd g)) list_ /\
  (forall v l it, In (v, l) g -> In it l -> dict_path it (split "."%char key) v).
Proof.
  intros list_ key g W H. unfold group_by in H. apply (group_by_loop list_ key [] []) in H as (vs & F & G); [|assumption|apply grouping_nil].
  simpl in G. split; [|split; [|split]].
  - destruct G as [-> _]. apply occurrences_NoDup.
  - intros v l I. eapply grouping_nonempty; eassumption.
  - assert (L : map snd (combine vs list_) = list_).
    { clear - F. induction F; simpl; congruence. }
    rewrite <- L. clear L F W. revert G. generalize (combine vs list_). clear. intros pairs [KS MS].
    assert (ND : NoDup (map fst g)) by (rewrite KS; apply occurrences_NoDup).
    assert (CV : forall p, In p pairs -> In (fst p) (map fst g)).
    { intros p I. rewrite KS. apply occurrences_In. now apply in_map. }
    clear KS. revert pairs MS CV. induction g as [|[k l] g IH]; intros pairs MS CV.
    + destruct pairs as [|p pairs]; [constructor|]. exfalso. apply (CV p). now left.
    + simpl in ND. inversion ND; subst.
      set (isk := fun p : val * val => if val_eq_dec k (fst p) then true else false).
      assert (P : Permutation pairs (filter isk pairs ++ filter (fun p => negb (isk p)) pairs)).
      { clear. induction pairs as [|p pairs IHp]; simpl; [constructor|]. destruct (isk p); simpl; [now constructor|].
        eapply perm_trans; [apply perm_skip, IHp|]. apply Permutation_middle. }
      rewrite (Permutation_map snd P), map_app. simpl. apply Permutation_app.
      * rewrite (MS k l (or_introl eq_refl)). apply Permutation_refl.
      * apply IH; [assumption| |].
        -- intros k' l' I. rewrite (MS k' l' (or_intror I)). f_equal. rewrite filter_filter. apply filter_ext_in'.
           intros [k2 v] _. unfold isk; simpl. destruct (val_eq_dec k' k2) as [->|]; [|now rewrite andb_false_r].
           destruct (val_eq_dec k k2) as [->|]; [|reflexivity]. exfalso. apply H1. apply in_map_iff. now exists (k2, l').
        -- intros p I. apply filter_In in I as [I Q]. destruct (CV p I) as [E|J]; [|assumption].
           unfold isk in Q. simpl in E. rewrite E in Q. destruct (val_eq_dec (fst p) (fst p)); [discriminate|congruence].
  - intros v l it I J. destruct G as [_ MS]. rewrite (MS v l I) in J. apply in_map_iff in J as ([v' it'] & E & J). simpl in E; subst it'.
    apply filter_In in J as [J Q]. simpl in Q. destruct (val_eq_dec v v') as [<-|]; [|discriminate].
    clear - F J. induction F as [|x y l vs [P _] F IH]; simpl in J; [contradiction|].
    destruct J as [E|J]; [injection E as -> ->; assumption|auto].
Qed.

Example C20_example :
  group_by [VDict [("a", VDict [("b", VS (SInt 1))])]; VDict [("a", VDict [])]; VDict [("a", VDict [("b", VS (SInt 1)); ("c", VNone)])]] "a.b"
  = Ok [(VS (SInt 1), [VDict [("a", VDict [("b", VS (SInt 1))])]; VDict [("a", VDict [("b", VS (SInt 1)); ("c", VNone)])]]);
        (VNone, [VDict [("a", VDict [])]])].
Proof. vm_compute. reflexivity. Qed.

(** ** C21 *)
Theorem C21_group : forall ts, grouping string_dec (target_pairs ts) (group_targets_by_type ts).
Proof. exact group_targets_grouping. Qed.

Theorem C21_regroup : forall d : list (string * list scalar), NoDup (map fst d) ->
  (forall k l, In (k, l) d -> l <> [] /\ ~ In SNone l) ->
  group_targets_by_type (ungroup_targets_by_type (map (fun '(k, l) => (k, TList l)) d)) = d.
Proof.
  intros d N H. eapply grouping_unique; [apply group_targets_grouping|].
  unfold target_pairs. rewrite ungroup_pairs, filter_all.
  - apply expand_grouping; [assumption|]. intros k l I. now apply (H k l).
  - intros [k v] I. apply expand_In in I as (l & I & J). simpl. destruct (scalar_eq_dec v SNone) as [->|]; [|reflexivity].
    exfalso. now apply (proj2 (H k l I)).
Qed.

(** Nothing is lost in either direction. *)
Theorem C21_ungroup_group : forall ts,
  Permutation (target_pairs (ungroup_targets_by_type (map (fun '(k, l) => (k, TList l)) (group_targets_by_type ts)))) (target_pairs ts).
Proof.
  intros ts. pose proof (grouping_expand_perm _ _ (group_targets_grouping ts)) as P.
  unfold target_pairs at 1. rewrite ungroup_pairs, filter_all; [assumption|].
  intros [k v] I. apply (Permutation_in _ P) in I. unfold target_pairs in I. now apply filter_In in I as [_ I].
Qed.

Example C21_example :
  group_targets_by_type [[("ven_id", SStr "a")]; [("group_id", SStr "g")]; [("ven_id", SStr "b"); ("party_id", SNone)]]
  = [("ven_id", [SStr "a"; SStr "b"]); ("group_id", [SStr "g"])].
Proof. vm_compute. reflexivity. Qed.

(** ** C22 *)

(** setmember succeeds exactly when there is something to set the member on;
    it stores the value, and every path that is not an extension or a prefix
    of the one assigned leads where it led. *)
Theorem C22_setmember : forall v key ks x, wf v -> wf x -> spells key ks ->
  ((exists v', setmember v key x = Ok v') <-> complete_but_last v ks) /\
  (forall v', setmember v key x = Ok v' ->
     getmember v' key None = Ok x /\
     forall key2 ks2, spells key2 ks2 ->
       (forall r, ks2 <> ks ++ r)%list -> (forall r, ks <> ks2 ++ r)%list ->
       forall y, getmember v' key2 None = Ok y <-> getmember v key2 None = Ok y).
Proof.
  intros v key ks x W Wx Sp. apply spells_split in Sp. subst ks. split.
  - rewrite <- (assigned_exists (split "."%char key) v x W (split_nonempty _ _)).
    split; intros (v' & H); exists v'; now apply setmember_assigned.
  - intros v' H. apply setmember_assigned in H; [|assumption].
    pose proof (assigned_wf _ _ _ _ W Wx H) as W'. split.
    + apply getmember_leads; [assumption|]. now apply assigned_read with (v := v).
    + intros key2 ks2 Sp2 NP NQ y. apply spells_split in Sp2. subst ks2.
      rewrite !getmember_leads by assumption. eapply assigned_other; eassumption.
Qed.

(** getmember reads exactly what is there; hasmember tells whether a dict or
    object has a name. *)
Theorem C22_getmember : forall v key ks x, wf v -> spells key ks ->
  (getmember v key None = Ok x <-> leads v ks x).
Proof. intros v key ks x W Sp. apply spells_split in Sp. subst ks. now apply getmember_leads. Qed.

Theorem C22_hasmember : forall v k, container v -> no_char "."%char k = true ->
  (hasmember v k = Ok true <-> exists x, child v k x) /\
  (forall x v', wf v -> wf x -> setmember v k x = Ok v' -> hasmember v' k = Ok true).
Proof.
  intros v k C D. split; [now apply hasmember_child|]. intros x v' W Wx H.
  assert (S : split dot k = [k]) by now apply split_no_char.
  apply setmember_assigned in H; [|assumption]. rewrite S in H. inversion H; subst; [|congruence].
  apply hasmember_child; [now destruct v|]. exists x. apply put_child; auto.
Qed.

(** With a default, a missing last name gives the default. *)
Theorem C22_default : forall v key ks dflt, wf v -> spells key ks -> complete_but_last v ks ->
  exists x, getmember v key (Some dflt) = Ok x /\
    (leads v ks x \/ (~ (exists y, leads v ks y) /\ x = dflt)).
Proof. intros v key ks dflt W Sp C. apply spells_split in Sp. subst ks. now apply getmember_default. Qed.

(** ... but with a default that is no dict or object, a missing name before the
    last one raises. *)
Theorem C22_default_intermediate : forall v k key ks dflt, wf v -> container v -> spells key (k :: ks) -> ks <> [] ->
  (~ exists x, child v k x) -> ~ container dflt -> getmember v key (Some dflt) = Raise AttributeError.
Proof.
  intros v k key ks dflt W C Sp NE N ND. apply spells_split in Sp. unfold getmember. rewrite Sp. cbn [foldM].
  apply container_fields in C as (d & E). rewrite (getmember_inner_fields _ _ _ _ E).
  destruct (get String.eqb k d) as [x|] eqn:G.
  - exfalso. apply N. exists x. apply child_fields. eauto using get_In_val.
  - cbn [bind]. destruct ks as [|k2 ks]; [congruence|]. cbn [foldM]. destruct dflt; simpl in ND; try reflexivity; tauto.
Qed.

Example C22_example :
  let v := VObj "Event" [("event_descriptor", VDict [("priority", VS (SInt 1)); ("status", VStr "near")])] in
  (exists v', setmember v "event_descriptor.status" (VStr "cancelled") = Ok v' /\
    getmember v' "event_descriptor.status" None = Ok (VStr "cancelled") /\
    getmember v' "event_descriptor.priority" None = Ok (VS (SInt 1))) /\
  getmember v "event_descriptor.comment" (Some VNone) = Ok VNone /\
  getmember v "targets.ven_id" (Some VNone) = Raise AttributeError.
Proof. vm_compute. repeat split. eexists; repeat split. Qed.

Print Assumptions C18_find_by_refuted.
Print Assumptions C18_find_by_partial.
Print Assumptions C19_pop_by.
Print Assumptions C19_pop_all.
Print Assumptions C20_group_by.
Print Assumptions C20_partition.
Print Assumptions C21_group.
Print Assumptions C21_regroup.
Print Assumptions C21_ungroup_group.
Print Assumptions C22_setmember.
Print Assumptions C22_default.
Print Assumptions C22_default_intermediate.
Print Assumptions C22_getmember.
Print Assumptions C22_hasmember.
