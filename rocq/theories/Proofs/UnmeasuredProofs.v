(** Lemmas on reports with intervals that have no start or no value (Model/Handling.v). *)
From Coq Require Import ZArith String List Bool Lia.
From Verif.Base Require Import Result Dict.
From Verif.Model Require Import Normalize VtnService Handling.
From Verif.Spec Require Import DeliveredSpec UpdatedSpec.
From Verif.Proofs Require Import DeliveredProofs.
Import ListNotations.
Local Open Scope string_scope.

(** Lists of intervals with their r_ids, as in [grouping]; there are no values. *)
Definition bare (k : val) : val * (val * val) := (k, (VNone, VNone)).
Definition tagged (is ks : list val) : list pair_of := combine is (map bare ks).

Lemma grouped_called intervals ks : Forall2 called intervals ks -> forall g l, grouping g l ->
  exists g', foldM (fun groups i => bind (member_or_none "report_payload" i) (fun p => bind (member_or_none "r_id" p) (fun k =>
         if hashable k then Ok (add_to k i groups) else Raise TypeError))) intervals g = Ok g' /\ grouping g' (l ++ tagged intervals ks)%list.
Proof.
  induction 1 as [|i k intervals ks R F IH]; intros g l G; [exists g; split; [reflexivity|]; cbn; now rewrite app_nil_r|].
  destruct R as (d & p & -> & P & K & NL & ND). destruct (IH (add_to k (VDict d) g) (l ++ [(VDict d, bare k)])%list (add_to_grouping g l _ (bare k) G)) as (g' & E & G').
  exists g'. split.
  - cbn [foldM]. cbn [member_or_none bind]. rewrite P. cbn [member_or_none bind]. rewrite K.
    replace (hashable k) with true; [exact E|]. destruct k as [| | | | | | |d'|l']; try reflexivity; exfalso; first [eapply ND; reflexivity | eapply NL; reflexivity].
  - unfold tagged in *. cbn [map combine]. rewrite <- app_assoc in G'. exact G'.
Qed.

Lemma values_fail l : Forall (fun i => exists k, called i k) l -> (exists vs, values_of l = Ok vs) \/ values_of l = Raise KeyError.
Proof.
  induction 1 as [|i l (k & d & p & -> & P & K & _) F IH]; [left; now exists []|]. unfold values_of in *. cbn [mapM item]. destruct (vget "dtstart" d); [|now right]. cbn [bind]. rewrite P. cbn [bind item].
  destruct (vget "value" p); [|now right]. cbn [bind]. destruct IH as [(vs & ->)| ->]; [left; now eexists | now right].
Qed.
Lemma values_lack l i : Forall (fun i => exists k, called i k) l -> In i l -> unmeasured i -> values_of l = Raise KeyError.
Proof.
  intros F I U. induction F as [|j l (k & d & p & -> & P & K & _) F IH]; [destruct I|]. unfold values_of in *. cbn [mapM item]. destruct I as [E|I].
  - destruct U as (d' & p' & U & P' & L). rewrite U in E. injection E as ->. rewrite P in P'. injection P' as <-. destruct L as [-> | L]; [reflexivity|]. destruct (vget "dtstart" d'); [|reflexivity]. cbn [bind]. rewrite P. cbn [bind item]. now rewrite L.
  - rewrite (IH I). destruct (vget "dtstart" d); [|reflexivity]. cbn [bind]. rewrite P. cbn [bind item]. now destruct (vget "value" p).
Qed.

Lemma in_intervals i k intervals ks : Forall2 called intervals ks -> In i intervals -> called i k -> In k (map (fun r : pair_of => fst (snd r)) (tagged intervals ks)) /\ In i (intervals_for k (tagged intervals ks)).
Proof.
  intros F I C. unfold tagged. induction F as [|j k' intervals ks R F IH]; [destruct I|]. cbn [map combine intervals_for fst snd bare In]. destruct I as [->|I].
  - assert (E : k' = k). { destruct R as (d & p & -> & P & K & _). destruct C as (d' & p' & [= <-] & P' & K' & _). congruence. }
    subst k'. split; [now left|]. destruct (val_eq_dec k k); [now left | congruence].
  - destruct (IH I) as [A B]. split; [now right|]. destruct (val_eq_dec k' k); [now right | exact B].
Qed.
Lemma intervals_called k intervals ks : Forall2 called intervals ks -> Forall (fun i => exists k, called i k) (intervals_for k (tagged intervals ks)).
Proof.
  intros F. unfold tagged. induction F as [|j k' intervals ks R F IH]; [constructor|]. cbn [map combine intervals_for fst bare]. destruct (val_eq_dec k' k); [constructor; [now exists k' | exact IH] | exact IH].
Qed.

Lemma deliver_lacks s id k l g : (forall k' l', In (k', l') g -> Forall (fun i => exists k, called i k) l') -> NoDup (map fst g) -> In (k, l) g -> In (id, k) (s_callbacks s) -> values_of l = Raise KeyError ->
  exists acts, deliver s id g = (acts, Raise KeyError) /\ (forall a, In a acts -> exists k' vs, a = Delivers id k' vs /\ k' <> k).
Proof.
  intros A ND I C V. induction g as [|[k1 l1] g IH]; [destruct I|]. inversion ND as [|? ? NI ND']; subst. cbn [deliver].
  assert (REST : k1 <> k -> exists acts, deliver s id g = (acts, Raise KeyError) /\ (forall a, In a acts -> exists k' vs, a = Delivers id k' vs /\ k' <> k)).
  { intros N. apply IH; [intros k' l' J; apply (A k'); now right | exact ND'|]. destruct I as [[= -> ->]|I]; [contradiction | exact I]. }
  destruct (val_eq_dec k1 k) as [->|N].
  - assert (E : l1 = l). { destruct I as [[= ->]|I]; [reflexivity|]. exfalso. apply NI. apply in_map_iff. now exists (k, l). }
    subst l1. replace (existsb (fun c => same id (fst c) && same k (snd c)) (s_callbacks s)) with true.
    + rewrite V. exists []. split; [reflexivity | intros a []].
    + symmetry. apply existsb_exists. exists (id, k). split; [exact C|]. cbn. now rewrite !(proj2 (same_eq _ _) eq_refl).
  - destruct (REST N) as (acts & E & W). destruct (existsb (fun c => same id (fst c) && same k1 (snd c)) (s_callbacks s)); [|now exists acts].
    destruct (values_fail l1 (A k1 l1 (or_introl eq_refl))) as [(vs & ->)| ->]; [|exists []; split; [reflexivity | intros a []]].
    rewrite E. eexists. split; [reflexivity|]. intros a [<-|J]; [now exists k1, vs | now apply W].
Qed.

Lemma report_lacks s d id intervals ks i k : vget "report_request_id" d = Some id -> vget "intervals" d = Some (VList intervals) -> Forall2 called intervals ks ->
  In i intervals -> called i k -> In (id, k) (s_callbacks s) -> unmeasured i ->
  exists acts, one_report s (VDict d) = (acts, Raise KeyError) /\ (forall a, In a acts -> exists k' vs, a = Delivers id k' vs /\ k' <> k).
Proof.
  intros GI GN F I C CB U. unfold one_report. cbn [item]. rewrite GI, GN. destruct (s_callbacks s) as [|c cs] eqn:E; [destruct CB|].
  cbn [bind items]. destruct (grouped_called intervals ks F [] []) as (g & G & (ND & V & K)); [split; [constructor|]; split; [intros k' is []|]; intros k'; reflexivity|].
  unfold grouped_by_id. rewrite G. cbn [app] in V, K. destruct (in_intervals i k intervals ks F I C) as [IK II]. apply K in IK. apply in_map_iff in IK as ([k' l] & EK & IG). cbn in EK. subst k'.
  pose proof (V k l IG) as ->. eapply deliver_lacks; [|exact ND | exact IG | now rewrite E|].
  - intros k' l' J. rewrite (V k' l' J). now apply intervals_called.
  - eapply values_lack; [now apply intervals_called | exact II | exact U].
Qed.
Lemma loop_lacks s d b acts e : one_report s (VDict d) = (acts, Raise e) -> report_loop s (VDict d :: b) = (acts, Raise e).
Proof. intros E. cbn [report_loop]. now rewrite E. Qed.

(** Several payloads in an interval *)
Lemma grouping_ends pre ks i ps post : Forall2 called pre ks -> vget "report_payload" i = Some (VList ps) -> grouped_by_id (pre ++ VDict i :: post) = Raise AttributeError.
Proof.
  unfold grouped_by_id. generalize (@nil (val * list val)) as g. intros g F V. revert g. induction F as [|j k pre ks R F IH]; intros g; cbn [app foldM].
  - cbn [member_or_none bind]. now rewrite V.
  - destruct R as (d & p & -> & P & K & NL & ND). cbn [member_or_none bind]. rewrite P. cbn [member_or_none bind]. rewrite K.
    replace (hashable k) with true; [apply IH|]. destruct k as [| | | | | | |d'|l']; try reflexivity; exfalso; first [eapply ND; reflexivity | eapply NL; reflexivity].
Qed.
Lemma report_several s d id pre ks i ps post : s_callbacks s <> [] -> vget "report_request_id" d = Some id -> vget "intervals" d = Some (VList (pre ++ VDict i :: post)%list) ->
  Forall2 called pre ks -> vget "report_payload" i = Some (VList ps) -> one_report s (VDict d) = ([], Raise AttributeError).
Proof.
  intros C GI GN F V. unfold one_report. cbn [item]. rewrite GI, GN. destruct (s_callbacks s); [contradiction|]. cbn [bind items]. now rewrite (grouping_ends pre ks i ps post F V).
Qed.
