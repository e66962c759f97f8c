(** Lemmas on the values of reports (Model/Handling.v). *)
From Coq Require Import ZArith String List Bool Lia.
From Verif.Base Require Import Result Dict.
From Verif.Model Require Import Normalize VtnService Handling.
From Verif.Spec Require Import DeliveredSpec.
Import ListNotations.
Local Open Scope string_scope.

Lemma same_eq a b : same a b = true <-> a = b.
Proof. unfold same. destruct (val_eq_dec a b); split; congruence. Qed.

Notation pair_of := (val * (val * (val * val)))%type.
(** The intervals for one r_id *)
Fixpoint intervals_for (k : val) (l : list pair_of) : list val :=
  match l with
  | [] => []
  | (i, r) :: l => if val_eq_dec (fst r) k then i :: intervals_for k l else intervals_for k l
  end.
Definition grouping (g : list (val * list val)) (l : list pair_of) : Prop :=
  NoDup (map fst g) /\ (forall k is, In (k, is) g -> is = intervals_for k l) /\ (forall k, In k (map fst g) <-> In k (map (fun r => fst (snd r)) l)).

Lemma intervals_app k a b : intervals_for k (a ++ b)%list = (intervals_for k a ++ intervals_for k b)%list.
Proof. induction a as [|[i r] a IH]; [reflexivity|]. cbn. destruct (val_eq_dec (fst r) k); cbn; now rewrite IH. Qed.
Lemma intervals_none k l : ~ In k (map (fun r : pair_of => fst (snd r)) l) -> intervals_for k l = [].
Proof.
  induction l as [|[i r] l IH]; [reflexivity|]. cbn. intros N. destruct (val_eq_dec (fst r) k) as [E|]; [exfalso; apply N; now left|]. apply IH. tauto.
Qed.

Lemma add_to_keys k v g : map fst (add_to k v g) = if existsb (same k) (map fst g) then map fst g else (map fst g ++ [k])%list.
Proof.
  induction g as [|[k' l] g IH]; [reflexivity|]. cbn. destruct (same k k') eqn:E; [reflexivity|]. cbn. rewrite IH. now destruct (existsb (same k) (map fst g)).
Qed.
Lemma add_to_in k v g : NoDup (map fst g) -> forall k' l', In (k', l') (add_to k v g) ->
  (k' <> k /\ In (k', l') g) \/ (k' = k /\ ((exists l, In (k, l) g /\ l' = (l ++ [v])%list) \/ (~ In k (map fst g) /\ l' = [v]))).
Proof.
  induction g as [|[k1 l1] g IH]; intros ND k' l' I.
  - destruct I as [[= <- <-]|[]]. right. split; [reflexivity|]. right. split; [intros []|reflexivity].
  - inversion ND as [|? ? NI ND']; subst. cbn in I. destruct (same k k1) eqn:E.
    + apply same_eq in E. subst k1. destruct I as [[= <- <-]|I].
      * right. split; [reflexivity|]. left. exists l1. split; [now left | reflexivity].
      * left. split; [|now right]. intros ->. apply NI. apply in_map_iff. now exists (k, l').
    + assert (N : k <> k1) by (intros ->; rewrite (proj2 (same_eq k1 k1) eq_refl) in E; discriminate E).
      destruct I as [[= <- <-]|I]; [left; split; [congruence | now left]|]. destruct (IH ND' _ _ I) as [(A & B)|(-> & [(l & B & C)|(B & C)])].
      * left. split; [exact A | now right].
      * right. split; [reflexivity|]. left. exists l. split; [now right | exact C].
      * right. split; [reflexivity|]. right. split; [|exact C]. cbn. intros [F|F]; [congruence | contradiction].
Qed.

Lemma add_to_grouping g l i r : grouping g l -> grouping (add_to (fst r) i g) (l ++ [(i, r)])%list.
Proof.
  intros (ND & V & K). split; [|split].
  - rewrite add_to_keys. destruct (existsb (same (fst r)) (map fst g)) eqn:E; [exact ND|].
    assert (N : ~ In (fst r) (map fst g)). { intros I. assert (X : existsb (same (fst r)) (map fst g) = true) by (apply existsb_exists; exists (fst r); split; [exact I | now apply same_eq]). congruence. }
    clear - ND N. revert ND N. generalize (fst r) (map fst g). intros k0 ks0 ND N. induction ks0 as [|k ks IH]; [constructor; [intros [] | constructor]|]. inversion ND; subst. cbn. constructor.
    + rewrite in_app_iff. intros [I|[E0|[]]]; [contradiction|]. apply N. left. congruence.
    + apply IH; [assumption|]. intros I. apply N. now right.
  - intros k is I. rewrite intervals_app. cbn [intervals_for]. destruct (add_to_in (fst r) i g ND k is I) as [(N & J)|(-> & [(is' & J & ->)|(J & ->)])].
    + destruct (val_eq_dec (fst r) k); [congruence|]. rewrite app_nil_r. now apply V.
    + destruct (val_eq_dec (fst r) (fst r)); [|congruence]. f_equal. now apply V.
    + destruct (val_eq_dec (fst r) (fst r)); [|congruence]. rewrite intervals_none; [reflexivity|]. now rewrite <- K.
  - intros k. rewrite map_app, in_app_iff, <- K. cbn [map In fst snd]. rewrite add_to_keys. destruct (existsb (same (fst r)) (map fst g)) eqn:E.
    + apply existsb_exists in E as (k' & J & E). apply same_eq in E. subst k'. split; [now left|]. intros [A|[<-|[]]]; assumption.
    + rewrite in_app_iff. cbn. reflexivity.
Qed.

Lemma grouped intervals rs : Forall2 reading intervals rs -> forall g l, grouping g l ->
  exists g', foldM (fun groups i => bind (member_or_none "report_payload" i) (fun p => bind (member_or_none "r_id" p) (fun k =>
         if hashable k then Ok (add_to k i groups) else Raise TypeError))) intervals g = Ok g' /\ grouping g' (l ++ combine intervals rs)%list.
Proof.
  induction 1 as [|i r intervals rs R F IH]; intros g l G; [exists g; split; [reflexivity|]; cbn; now rewrite app_nil_r|].
  destruct R as (d & p & -> & T & P & K & _ & NL & ND). destruct (IH (add_to (fst r) (VDict d) g) (l ++ [(VDict d, r)])%list (add_to_grouping g l _ r G)) as (g' & E & G').
  exists g'. split.
  - cbn [foldM]. cbn [member_or_none bind]. rewrite P. cbn [member_or_none bind]. rewrite K.
    replace (hashable (fst r)) with true; [exact E|]. destruct (fst r) as [| | | | | | |d'|l'] eqn:X; try reflexivity; exfalso; first [eapply ND; reflexivity | eapply NL; reflexivity].
  - cbn [combine]. rewrite <- app_assoc in G'. exact G'.
Qed.

Lemma values_read k intervals rs : Forall2 reading intervals rs -> values_of (intervals_for k (combine intervals rs)) = Ok (values_for k rs).
Proof.
  induction 1 as [|i [k' x] intervals rs R F IH]; [reflexivity|]. cbn [combine intervals_for values_for fst]. destruct (val_eq_dec k' k); [|exact IH].
  destruct R as (d & p & -> & T & P & K & W & _). unfold values_of in *. cbn [mapM item]. rewrite T. cbn [bind]. rewrite P. cbn [bind item]. rewrite W. cbn [bind]. rewrite IH. now destruct x.
Qed.

Lemma delivered s id rs intervals : Forall2 reading intervals rs -> forall g, (forall k is, In (k, is) g -> is = intervals_for k (combine intervals rs)) -> NoDup (map fst g) ->
  exists acts, deliver s id g = (acts, Ok tt) /\ NoDup acts
    /\ (forall a, In a acts <-> exists k, a = Delivers id k (values_for k rs) /\ In k (map fst g) /\ In (id, k) (s_callbacks s)).
Proof.
  intros F. induction g as [|[k is] g IH]; intros V ND.
  - exists []. split; [reflexivity|]. split; [constructor|]. intros a. split; [intros [] | intros (k & _ & [] & _)].
  - inversion ND as [|? ? NI ND']; subst. destruct IH as (acts & E & NA & A); [intros k' is' I; apply V; now right | exact ND' |].
    cbn [deliver]. destruct (existsb (fun c => same id (fst c) && same k (snd c)) (s_callbacks s)) eqn:X.
    + rewrite (V k is (or_introl eq_refl)), (values_read k _ _ F), E. eexists. split; [reflexivity|]. apply existsb_exists in X as ([i' k'] & J & X). apply andb_true_iff in X as [X1 X2]. apply same_eq in X1, X2. cbn in X1, X2. subst i' k'. split.
      * constructor; [|exact NA]. intros I. apply A in I as (k' & [= <- _] & I & _). contradiction.
      * intros a. cbn [In map fst]. split.
        -- intros [<-|I]; [exists k; repeat split; [now left | exact J]|]. apply A in I as (k' & -> & I & C). exists k'. repeat split; [now right | exact C].
        -- intros (k' & -> & [<-|I] & C); [now left|]. right. apply A. now exists k'.
    + exists acts. split; [exact E|]. split; [exact NA|]. intros a. rewrite A. cbn [map fst In]. split.
      * intros (k' & -> & I & C). exists k'. repeat split; [now right | exact C].
      * intros (k' & -> & [<-|I] & C); [|now exists k']. exfalso.
        assert (Y : existsb (fun c => same id (fst c) && same k (snd c)) (s_callbacks s) = true); [|congruence]. apply existsb_exists. exists (id, k). split; [exact C|]. cbn. now rewrite !(proj2 (same_eq _ _) eq_refl).
Qed.

Lemma report_given s report : s_callbacks s <> [] -> complete report -> exists acts, one_report s report = (acts, Ok tt) /\ given s report acts.
Proof.
  intros C (d & id & intervals & rs & -> & I & N & F). unfold one_report. cbn [item]. rewrite I, N. destruct (s_callbacks s) as [|c cs] eqn:CB; [contradiction|].
  cbn [bind items]. destruct (grouped intervals rs F [] []) as (g & E & (ND & V & K)).
  { split; [constructor|]. split; [intros k is []|]. intros k. reflexivity. }
  unfold grouped_by_id. rewrite E. cbn [app] in V, K. destruct (delivered s id rs intervals F g V ND) as (acts & D & NA & A). exists acts. split; [exact D|].
  exists d, id, intervals, rs. repeat (split; [assumption || reflexivity|]). intros a. rewrite A. split; intros (k & -> & J & S); exists k; (split; [reflexivity|]); (split; [|exact S]).
  - apply K in J. apply in_map_iff in J as ([i r] & <- & J). apply in_combine_r in J. cbn. now apply in_map.
  - apply K. apply in_map_iff in J as (r & <- & J). clear - F J. induction F as [|i r' intervals rs R F IH]; [destruct J|]. destruct J as [->|J]; [now left|]. right. now apply IH.
Qed.
Lemma reports_given s l : s_callbacks s <> [] -> Forall complete l -> exists actss, Forall2 (given s) l actss /\ report_loop s l = (concat actss, Ok tt).
Proof.
  intros C. induction 1 as [|r l R F IH]; [exists []; split; [constructor|reflexivity]|]. destruct (report_given s r C R) as (a & E & G). destruct IH as (ass & GS & ES).
  exists (a :: ass). split; [now constructor|]. cbn [report_loop concat]. now rewrite E, ES.
Qed.

Lemma handled_without s p t acts o : pget "ven_id" p = None -> without_id s p t acts o -> handling s t p = (acts, o).
Proof.
  intros N. assert (NV : needs_ven p = ([], Raises KeyError)) by (unfold needs_ven; now rewrite N). destruct 1 as [t I|R|l R|S|S|S|S|].
  - destruct I as [<-|[<-|[<-|[]]]]; exact NV.
  - change (register_report p = ([], Returns)). unfold register_report. now rewrite R.
  - change (register_report p = ([], Raises KeyError)). unfold register_report, pget_none. rewrite R. exact NV.
  - change (created_report s p = ([Calls "on_created_report"], Returns)). unfold created_report. now rewrite S.
  - change (created_report s p = ([], Raises KeyError)). unfold created_report. now rewrite S.
  - change (registered_report s p = ([Calls "on_registered_report"], Returns)). unfold registered_report. now rewrite S.
  - change (registered_report s p = ([], Raises KeyError)). unfold registered_report. now rewrite S, N.
  - reflexivity.
Qed.
