(** Preflight on the payloads of events and offers. *)
From Coq Require Import ZArith String List Bool Lia.
From Verif.Base Require Import Result Dict PyStr.
From Verif.Model Require Import DateTime Duration Measurements Normalize Xml XmlParty Payloads Preflight PreflightDict.
From Verif.Spec Require Import CheckedSpec.
Import ListNotations.
Local Open Scope string_scope.
Local Open Scope Z_scope.

Lemma mapM_Forall2 {A B} (f : A -> result B) l m : Forall2 (fun x y => f x = Ok y) l m -> mapM f l = Ok m.
Proof. induction 1 as [|x y l m E _ IH]; [reflexivity|]. cbn. rewrite E. cbn. now rewrite IH. Qed.
Lemma mapMi_Forall2 {A B} (f : nat -> A -> result B) l m : Forall2 (fun x y => forall i, f i x = Ok y) l m -> forall i, mapMi f i l = Ok m.
Proof. induction 1 as [|x y l m E _ IH]; intros i; [reflexivity|]. cbn. rewrite E. cbn. now rewrite IH. Qed.
Lemma Forall2_maps {A B C D} (P : C -> D -> Prop) (f : A -> C) (g : B -> D) l m : Forall2 (fun x y => P (f x) (g y)) l m -> Forall2 P (map f l) (map g m).
Proof. induction 1; constructor; assumption. Qed.
Lemma Forall2_flip {A B} (R : A -> B -> Prop) (P : A -> Prop) l m : Forall2 R l m -> Forall P l -> Forall2 (fun x y => R x y /\ P x) l m.
Proof. induction 1; intros F; constructor; inversion F; auto. Qed.
Lemma Forall2_imp {A B} (R S : A -> B -> Prop) l m : (forall x y, R x y -> S x y) -> Forall2 R l m -> Forall2 S l m.
Proof. intros I. induction 1; constructor; auto. Qed.
Lemma Forall2_same {A} (R : A -> A -> Prop) l : Forall (fun x => R x x) l -> Forall2 R l l.
Proof. induction 1; constructor; auto. Qed.
Lemma mapM_raises {A B} (f : A -> result B) l : (exists x, In x l /\ exists e, f x = Raise e) -> exists e, mapM f l = Raise e.
Proof.
  induction l as [|a l IH]; intros (x & I & e & E); [destruct I|]. cbn. destruct (f a) as [b|e'] eqn:F; [|now exists e'].
  destruct I as [->|I]; [congruence|]. destruct IH as (e' & E'); [now exists x; split; [|exists e]|]. cbn. rewrite E'. now exists e'.
Qed.

Definition is_zero (n : number) : bool := is_number 0 (number_val n).
Lemma is_zero_spec n : is_zero n = true <-> a_zero n.
Proof.
  unfold is_zero, a_zero. destruct n as [z|t]; cbn.
  - rewrite Z.eqb_eq. split; [intros ->; auto|]. intros [[= ->]|[[=]|[=]]]. reflexivity.
  - rewrite orb_true_iff, !String.eqb_eq. split; [intros [->| ->]; auto|]. intros [[=]|[[= ->]|[= ->]]]; auto.
Qed.
Lemma is_level_spec n : existsb (fun k => is_number k (number_val n)) [0; 1; 2; 3] = true <-> a_level n.
Proof.
  unfold a_level. rewrite <- is_zero_spec. unfold is_zero. cbn [existsb]. rewrite !orb_true_iff. cbn [In]. destruct n as [z|t]; cbn [number_val is_number].
  - rewrite !Z.eqb_eq. split.
    + intros [->|[->|[->|[->|[=]]]]]; auto 10.
    + intros [->|[[= ->]|[[= ->]|[[= ->]|[[=]|[[=]|[[=]|[]]]]]]]]; auto.
  - rewrite !orb_true_iff, !String.eqb_eq. split.
    + intros [H|[->|[->|[->|[=]]]]]; auto 10.
    + intros [H|[[=]|[[=]|[[=]|[[= ->]|[[= ->]|[[= ->]|[]]]]]]]]; auto 10.
Qed.

(** ** Events *)
Section Events.
Context (ns : string -> string) (known : forall n s, get String.eqb n Measurements.measurement_namespaces = Some s -> ns n = s).
Notation event_val := (event_val ns). Notation signal_val := (signal_val ns).

Lemma interval_lasts i d : i_duration i = Some d -> bind (item "duration" (interval_val i)) (fun d => parse_duration (duration_arg d)) = Ok d.
Proof. intros E. unfold interval_val. rewrite E. reflexivity. Qed.
Lemma interval_endless i : i_duration i = None -> bind (item "duration" (interval_val i)) (fun d => parse_duration (duration_arg d)) = Raise TypeError.
Proof. intros E. unfold interval_val. rewrite E. reflexivity. Qed.
Lemma fold_left_right ds : forall a, fold_left Z.add ds a = a + fold_right Z.add 0 ds.
Proof. induction ds as [|d ds IH]; intros a; cbn; [lia|]. rewrite IH. lia. Qed.
Lemma signal_lasts z s : lasting z s -> signal_total (signal_val s) = Ok z.
Proof.
  intros (ds & E & ->). unfold signal_total, Payloads.signal_val. cbn [item vget get String.eqb Ascii.eqb Bool.eqb bind elements].
  rewrite (mapM_Forall2 _ (map interval_val (s_intervals s)) ds).
  - cbn [bind]. now rewrite fold_left_right.
  - revert ds E. induction (s_intervals s) as [|i l IH]; intros [|d ds] E; try discriminate E; constructor.
    + apply interval_lasts. now injection E.
    + apply IH. now injection E.
Qed.
Lemma signal_endless s i : In i (s_intervals s) -> i_duration i = None -> exists e, signal_total (signal_val s) = Raise e.
Proof.
  intros I E. unfold signal_total, Payloads.signal_val. cbn [item vget get String.eqb Ascii.eqb Bool.eqb bind elements].
  destruct (mapM_raises (fun i => bind (item "duration" i) (fun d => parse_duration (duration_arg d))) (map interval_val (s_intervals s))) as (e & X).
  - exists (interval_val i). split; [now apply in_map|]. exists TypeError. now apply interval_endless.
  - rewrite X. now exists e.
Qed.

Definition with_duration (z : Z) (e : event) : event :=
  let a := e_active_period e in mk_event (e_descriptor e) (mk_active (a_dtstart a) z (a_startafter a) (a_notification a) (a_ramp_up a) (a_recovery a)) (e_signals e) (e_targets e) (e_response_required e).
Definition with_signals (l : list signal) (e : event) : event := mk_event (e_descriptor e) (e_active_period e) l (e_targets e) (e_response_required e).
Definition with_response (r : string) (e : event) : event := mk_event (e_descriptor e) (e_active_period e) (e_signals e) (e_targets e) r.

Lemma with_own_duration e : with_duration (a_duration (e_active_period e)) e = e.
Proof. now destruct e as [? [] ? ? ?]. Qed.
Lemma event_duration_ok z e : Forall (lasting z) (e_signals e) -> (e_signals e = [] -> z = a_duration (e_active_period e)) -> event_duration (event_val e) = Ok (event_val (with_duration z e)).
Proof.
  intros F N. unfold event_duration, Payloads.event_val at 1 2 3 4, active_period_val. cbn [item vget get String.eqb Ascii.eqb Bool.eqb bind elements].
  assert (E : mapM signal_total (map signal_val (e_signals e)) = Ok (map (fun _ => z) (e_signals e))).
  { apply mapM_Forall2. clear N. induction F as [|s l L _ IH]; constructor; [now apply signal_lasts|exact IH]. }
  rewrite E. cbn [bind lasts]. clear E F. destruct (e_signals e) as [|s l] eqn:ES; cbn [map forallb].
  - rewrite (N eq_refl), with_own_duration. unfold Payloads.event_val. now rewrite ES.
  - destruct (Z.eqb_spec z (a_duration (e_active_period e))) as [->|D].
    + assert (A : forall l : list signal, forallb (fun d => d =? a_duration (e_active_period e)) (map (fun _ => a_duration (e_active_period e)) l) = true) by (intros k; induction k; cbn; [reflexivity|now rewrite Z.eqb_refl]).
      rewrite A. cbn [andb]. rewrite with_own_duration. unfold Payloads.event_val. now rewrite ES.
    + cbn [andb]. assert (A : forall l : list signal, forallb (fun d => d =? z) (map (fun _ => z) l) = true) by (intros k; induction k; cbn; [reflexivity|now rewrite Z.eqb_refl]).
      rewrite A, Z.eqb_refl. cbn [andb]. unfold Payloads.event_val, with_duration, active_period_val. rewrite ES. reflexivity.
Qed.

Lemma simple_intervals l : (Forall (fun i => a_level (i_payload i)) l -> mapM simple_payload (map interval_val l) = Ok (map interval_val l)) /\
  (~ Forall (fun i => a_level (i_payload i)) l -> mapM simple_payload (map interval_val l) = Raise ValueError).
Proof.
  induction l as [|i l (IH1 & IH2)]; [split; [reflexivity|intros N; destruct N; constructor]|]. cbn [map mapM].
  assert (E : simple_payload (interval_val i) = if existsb (fun k => is_number k (number_val (i_payload i))) [0; 1; 2; 3] then Ok (interval_val i) else Raise ValueError) by reflexivity. rewrite E.
  pose proof (is_level_spec (i_payload i)) as S. destruct (existsb _ _); cbn [bind].
  - split; intros H; [inversion H; subst; now rewrite IH1|]. rewrite IH2; [reflexivity|]. intros F. apply H. constructor; [now apply S|exact F].
  - split; intros H; [|reflexivity]. inversion H as [|? ? L]. apply S in L. discriminate L.
Qed.
Lemma levels_kept s : levels s -> simple_signal (signal_val s) = Ok (signal_val s).
Proof.
  intros L. unfold simple_signal. change (item "signal_name" (signal_val s)) with (Ok (VStr (s_name s))). cbn [bind the_text]. destruct (String.eqb_spec "SIMPLE" (s_name s)) as [E|_]; [|reflexivity].
  unfold each, Payloads.signal_val. cbn [item vget get String.eqb Ascii.eqb Bool.eqb bind elements]. rewrite (proj1 (simple_intervals _)) by (apply L; congruence). reflexivity.
Qed.
Lemma levels_refused s : ~ levels s -> exists e, simple_signal (signal_val s) = Raise e.
Proof.
  intros L. unfold simple_signal. change (item "signal_name" (signal_val s)) with (Ok (VStr (s_name s))). cbn [bind the_text]. destruct (String.eqb_spec "SIMPLE" (s_name s)) as [E|N].
  - unfold each, Payloads.signal_val. cbn [item vget get String.eqb Ascii.eqb Bool.eqb bind elements]. rewrite (proj2 (simple_intervals _)); [now eexists|]. intros F. apply L. now intros _.
  - destruct L. intros E. congruence.
Qed.
Lemma each_signal f e (l : list signal) : mapM f (map signal_val (e_signals e)) = Ok (map signal_val l) -> each "event_signals" f (event_val e) = Ok (event_val (with_signals l e)).
Proof. intros E. unfold each, Payloads.event_val at 1 2. cbn [item vget get String.eqb Ascii.eqb Bool.eqb bind elements]. rewrite E. reflexivity. Qed.
Lemma with_own_signals e : with_signals (e_signals e) e = e.
Proof. now destruct e. Qed.

Lemma current_settled e s s' : settled_signal (d_status (e_descriptor e)) s s' -> current_value (event_val e) (signal_val s) = Ok (signal_val s').
Proof.
  intros (E1 & E2 & E3 & E4 & E5 & E). assert (C : forall c, signal_val (mk_signal (s_intervals s) (s_name s) (s_type s) (s_id s) (s_measurement s) c) = put "current_value" (or_none number_val c) (signal_val s)) by reflexivity.
  assert (S' : s' = mk_signal (s_intervals s) (s_name s) (s_type s) (s_id s) (s_measurement s) (s_current_value s')) by (destruct s'; cbn in *; congruence). rewrite S', C. clear C S' E1 E2 E3 E4 E5.
  unfold current_value. change (has "current_value" (signal_val s)) with (Ok true). cbn [bind]. change (item "current_value" (signal_val s)) with (Ok (or_none number_val (s_current_value s))). cbn [bind].
  change (item "signal_name" (signal_val s)) with (Ok (VStr (s_name s))). change (item "event_descriptor" (event_val e)) with (Ok (descriptor_val (e_descriptor e))). cbn [bind].
  change (item "event_status" (descriptor_val (e_descriptor e))) with (Ok (VStr (d_status (e_descriptor e)))). cbn [bind the_text].
  assert (K : put "current_value" (or_none number_val (s_current_value s)) (signal_val s) = signal_val s) by reflexivity.
  assert (Z0 : is_number 0 (or_none number_val (s_current_value s)) = true <-> exists n, s_current_value s = Some n /\ a_zero n).
  { destruct (s_current_value s) as [n|]; cbn [or_none].
    - pose proof (is_zero_spec n) as S. unfold is_zero in S. rewrite S. split; [intros H; now exists n|]. now intros (m & [= <-] & H).
    - split; [discriminate|]. now intros (m & [=] & _). }
  destruct (is_number 0 (or_none number_val (s_current_value s))) eqn:EZ.
  - destruct E as [(-> & _)|(_ & _ & _ & N)]; [now rewrite K|]. destruct N. now apply Z0.
  - destruct (String.eqb_spec "SIMPLE" (s_name s)) as [SN|SN]; cbn [bind].
    + destruct (String.eqb_spec "ACTIVE" (d_status (e_descriptor e))) as [A|A]; destruct E as [(-> & H)|(-> & _ & A' & _)].
      * now rewrite K.
      * congruence.
      * destruct Z0 as [_ Z0]. assert (false = true) by (apply Z0, H; split; congruence). discriminate.
      * reflexivity.
    + destruct E as [(-> & _)|(_ & A & _)]; [now rewrite K|congruence].
Qed.

Lemma measured_kept (f : val -> result val) v d m : v = VDict d -> vget "measurement" d = Some m -> (m = VNone \/ f m = Ok m) -> measured f v = Ok v.
Proof.
  intros -> G H. unfold measured. cbn [has]. unfold vmem, mem. unfold vget in G. rewrite G. cbn [bind item]. unfold vget. rewrite G. cbn [bind]. destruct H as [->|H]; [reflexivity|].
  assert (S : put "measurement" m (VDict d) = VDict d).
  { cbn [put]. f_equal. unfold vset. clear H. induction d as [|[k x] d IH]; [discriminate|]. cbn [get set] in *. destruct (String.eqb "measurement" k); [congruence|]. f_equal. now apply IH. }
  destruct m; try reflexivity; rewrite H; cbn [bind]; now rewrite S.
Qed.
Lemma add_ns_kept m : In (m_name m) (map fst Measurements.measurement_namespaces) -> add_ns (measurement_val ns m) = Ok (measurement_val ns m).
Proof.
  intros I. unfold add_ns. change (item "name" (measurement_val ns m)) with (Ok (VStr (m_name m))). cbn [bind].
  destruct (get String.eqb (m_name m) Measurements.measurement_namespaces) as [n|] eqn:G.
  - rewrite <- (known _ _ G). reflexivity.
  - exfalso. revert I G. generalize Measurements.measurement_namespaces. intros l. induction l as [|[k x] l IH]; cbn; [tauto|]. intros [->|I]; [now rewrite String.eqb_refl|]. destruct (String.eqb _ _); [discriminate|auto].
Qed.
Definition names_known (e : event) : Prop := Forall (fun s => match s_measurement s with Some m => In (m_name m) (map fst Measurements.measurement_namespaces) | None => True end) (e_signals e).
Lemma ns_kept s : match s_measurement s with Some m => In (m_name m) (map fst Measurements.measurement_namespaces) | None => True end -> measured add_ns (signal_val s) = Ok (signal_val s).
Proof. intros H. eapply measured_kept; [reflexivity|reflexivity|]. destruct (s_measurement s) as [m|]; [right; now apply add_ns_kept|now left]. Qed.

Lemma response_settled e r : (In (e_response_required e) ["always"; "never"] /\ r = e_response_required e \/ ~ In (e_response_required e) ["always"; "never"] /\ r = "always") ->
  response_required (event_val e) = Ok (event_val (with_response r e)).
Proof.
  intros H. unfold response_required. change (has "response_required" (event_val e)) with (Ok true). cbn [bind]. change (item "response_required" (event_val e)) with (Ok (VStr (e_response_required e))). cbn [bind the_text].
  assert (P : event_val (with_response r e) = put "response_required" (VStr r) (event_val e)) by reflexivity. rewrite P.
  assert (K : put "response_required" (VStr (e_response_required e)) (event_val e) = event_val e) by reflexivity.
  destruct (String.eqb_spec "never" (e_response_required e)) as [N|N]; [|destruct (String.eqb_spec "always" (e_response_required e)) as [A|A]]; cbn [orb]; destruct H as [(I & ->)|(I & ->)].
  - now rewrite K.
  - destruct I. rewrite <- N. cbn. tauto.
  - now rewrite K.
  - destruct I. rewrite <- A. cbn. tauto.
  - exfalso. destruct I as [I|[I|[]]]; congruence.
  - reflexivity.
Qed.

Lemma targets_kept e : targets (event_val e) = Ok (event_val e).
Proof. reflexivity. Qed.
Lemma created_kept now e : created_date_time now (event_val e) = Ok (event_val e).
Proof. reflexivity. Qed.

Lemma mapM_events (f : val -> result val) (g : event -> event) es : Forall (fun e => f (event_val e) = Ok (event_val (g e))) es -> mapM f (map event_val es) = Ok (map event_val (map g es)).
Proof. intros F. apply mapM_Forall2. rewrite map_map. apply Forall2_maps, Forall2_same. exact F. Qed.

Lemma events_checked now es es' : Forall2 settled es es' -> Forall names_known es' -> preflight_events now (map event_val es) = Ok (map event_val es').
Proof.
  intros F K.
  assert (H : Forall2 (fun e e' => exists z, settled e e' /\ names_known e' /\ Forall (lasting z) (e_signals e) /\ (e_signals e = [] -> z = a_duration (e_active_period e)) /\ settled_period z (e_active_period e) (e_active_period e')) es es').
  { clear now. induction F as [|e e' l l' S _ IH]; constructor; [|apply IH; now inversion K]. pose proof S as (_ & _ & _ & _ & (z & L & N & P) & _). exists z. inversion K. auto. }
  clear F K. unfold preflight_events, distribute_checks. cbn [foldM].
  assert (S1 : exists l1, mapM event_duration (map event_val es) = Ok (map event_val l1) /\
    Forall2 (fun e e' => e_descriptor e' = e_descriptor e /\ e_targets e' = e_targets e /\ e_active_period e' = e_active_period e /\ Forall levels (e_signals e) /\ Forall2 (settled_signal (d_status (e_descriptor e))) (e_signals e) (e_signals e') /\ names_known e' /\
      (In (e_response_required e) ["always"; "never"] /\ e_response_required e' = e_response_required e \/ ~ In (e_response_required e) ["always"; "never"] /\ e_response_required e' = "always")) l1 es').
  { induction H as [|e e' l l' (z & S & NK & L & N & P) _ (l1 & E1 & F1)]; [exists []; split; [reflexivity|constructor]|]. exists (with_duration z e :: l1). split.
    - cbn [map mapM]. rewrite (event_duration_ok z e L N). cbn [bind]. now rewrite E1.
    - constructor; [|exact F1]. destruct S as (S1 & S2 & S3 & S4 & _ & S6). destruct P as (P1 & P2 & P3 & P4 & P5 & P6). repeat split; try assumption.
      cbn. destruct (e_active_period e') as [a1 a2 a3 a4 a5 a6]. cbn in *. congruence. }
  destruct S1 as (l1 & E1 & F1). rewrite E1. cbn [bind]. clear E1 H es.
  assert (E2 : mapM (each "event_signals" simple_signal) (map event_val l1) = Ok (map event_val l1)).
  { apply mapM_Forall2, Forall2_maps, Forall2_same. clear -F1. induction F1 as [|e e' l l' (_ & _ & _ & L & _) _ IH]; constructor; [|exact IH].
    rewrite (each_signal _ e (e_signals e)), with_own_signals; [reflexivity|]. apply mapM_Forall2, Forall2_maps, Forall2_same. eapply Forall_impl; [|exact L]. intros s. apply levels_kept. }
  rewrite E2. cbn [bind]. clear E2.
  assert (S3 : exists l3, mapM (fun event => each "event_signals" (current_value event) event) (map event_val l1) = Ok (map event_val l3) /\
    Forall2 (fun e e' => e_descriptor e' = e_descriptor e /\ e_targets e' = e_targets e /\ e_active_period e' = e_active_period e /\ e_signals e' = e_signals e /\ names_known e' /\
      (In (e_response_required e) ["always"; "never"] /\ e_response_required e' = e_response_required e \/ ~ In (e_response_required e) ["always"; "never"] /\ e_response_required e' = "always")) l3 es').
  { induction F1 as [|e e' l l' (S1 & S2 & S3 & S4 & S5 & S6 & S7) _ (l3 & E3 & F3)]; [exists []; split; [reflexivity|constructor]|]. exists (with_signals (e_signals e') e :: l3). split.
    - cbn [map mapM]. rewrite (each_signal _ e (e_signals e')); [cbn [bind]; now rewrite E3|]. apply mapM_Forall2, Forall2_maps. eapply Forall2_imp; [|exact S5]. intros s s'. apply current_settled.
    - constructor; [|exact F3]. now repeat split. }
  destruct S3 as (l3 & E3 & F3). rewrite E3. cbn [bind]. clear E3 F1 l1.
  assert (E4 : mapM (each "event_signals" (measured add_ns)) (map event_val l3) = Ok (map event_val l3)).
  { apply mapM_Forall2, Forall2_maps, Forall2_same. clear -F3 known. induction F3 as [|e e' l l' (_ & _ & _ & L & NK & _) _ IH]; constructor; [|exact IH].
    rewrite (each_signal _ e (e_signals e)), with_own_signals; [reflexivity|]. apply mapM_Forall2, Forall2_maps, Forall2_same. unfold names_known in NK. rewrite L in NK. eapply Forall_impl; [|exact NK]. intros s. apply ns_kept. }
  rewrite E4. cbn [bind]. clear E4.
  assert (E5 : mapM response_required (map event_val l3) = Ok (map event_val es')).
  { apply mapM_Forall2, Forall2_maps. eapply Forall2_imp; [|exact F3]. intros e e' (S1 & S2 & S3 & S4 & _ & S5). rewrite (response_settled e (e_response_required e')) by exact S5.
    destruct e, e'. cbn in *. now subst. }
  rewrite E5. cbn [bind].
  rewrite (mapMi_Forall2 _ (map event_val es') (map event_val es')).
  - cbn [bind]. apply mapM_Forall2, Forall2_maps, Forall2_same, Forall_forall. intros e _. apply targets_kept.
  - apply Forall2_maps, Forall2_same, Forall_forall. intros e _ i. apply created_kept.
Qed.

(** *** Events that cannot be sent *)
Lemma mapM_known {A B} (f : A -> result B) l ys : mapM f l = Ok ys -> Forall2 (fun x y => f x = Ok y) l ys.
Proof.
  revert ys. induction l as [|a l IH]; intros ys E; cbn in E; [injection E as <-; constructor|]. destruct (f a) as [b|] eqn:F; [|discriminate E]. cbn in E. destruct (mapM f l) as [bs|]; [|discriminate E].
  injection E as <-. constructor; [exact F|now apply IH].
Qed.
Lemma event_duration_form e : (exists x, event_duration (event_val e) = Raise x) \/ exists z, event_duration (event_val e) = Ok (event_val (with_duration z e)).
Proof.
  unfold event_duration. change (item "active_period" (event_val e)) with (Ok (active_period_val (e_active_period e))). cbn [bind].
  change (item "duration" (active_period_val (e_active_period e))) with (Ok (VDur (a_duration (e_active_period e)))). change (item "event_signals" (event_val e)) with (Ok (VList (map signal_val (e_signals e)))). cbn [bind elements].
  destruct (mapM signal_total (map signal_val (e_signals e))) as [ds|x]; [|left; now exists x]. cbn [bind].
  assert (K : event_val e = event_val (with_duration (a_duration (e_active_period e)) e)) by (now rewrite with_own_duration).
  destruct (forallb _ ds); [right; eexists; now rewrite K at 1|]. destruct ds as [|d ds]; [right; eexists; now rewrite K at 1|]. destruct (forallb _ (d :: ds)); [|left; eexists; reflexivity].
  right. exists d. reflexivity.
Qed.
Lemma lasting_one z z' s : lasting z s -> lasting z' s -> z = z'.
Proof.
  intros (ds & E & ->) (ds' & E' & ->). rewrite E in E'. f_equal. clear E. revert ds' E'. induction ds as [|d ds IH]; intros [|d' ds'] E; try discriminate E; [reflexivity|]. injection E as -> E. f_equal. now apply IH.
Qed.
Lemma endless_raises e s i : In s (e_signals e) -> In i (s_intervals s) -> i_duration i = None -> exists x, event_duration (event_val e) = Raise x.
Proof.
  intros I J N. unfold event_duration. change (item "active_period" (event_val e)) with (Ok (active_period_val (e_active_period e))). cbn [bind].
  change (item "duration" (active_period_val (e_active_period e))) with (Ok (VDur (a_duration (e_active_period e)))). change (item "event_signals" (event_val e)) with (Ok (VList (map signal_val (e_signals e)))). cbn [bind elements].
  destruct (mapM_raises signal_total (map signal_val (e_signals e))) as (x & X); [|rewrite X; now exists x]. exists (signal_val s). split; [now apply in_map|]. now apply signal_endless with i.
Qed.
Lemma uneven_raises e s s' z z' : In s (e_signals e) -> In s' (e_signals e) -> lasting z s -> lasting z' s' -> z <> z' -> exists x, event_duration (event_val e) = Raise x.
Proof.
  intros I I' L L' N. unfold event_duration. change (item "active_period" (event_val e)) with (Ok (active_period_val (e_active_period e))). cbn [bind].
  change (item "duration" (active_period_val (e_active_period e))) with (Ok (VDur (a_duration (e_active_period e)))). change (item "event_signals" (event_val e)) with (Ok (VList (map signal_val (e_signals e)))). cbn [bind elements].
  destruct (mapM signal_total (map signal_val (e_signals e))) as [ds|x] eqn:E; [|now exists x]. cbn [bind lasts]. apply mapM_known in E.
  assert (M : forall s z, In s (e_signals e) -> lasting z s -> In z ds).
  { clear -E. intros s z. remember (map signal_val (e_signals e)) as vs eqn:V. revert V. generalize (e_signals e). induction E as [|v d vs ds T _ IH]; intros [|s0 l] V; try discriminate V; [intros []|]. injection V as -> ->.
    intros [->|I] L; [left; rewrite (signal_lasts _ _ L) in T; congruence|right; now apply (IH l)]. }
  pose proof (M s z I L) as Iz. pose proof (M s' z' I' L') as Iz'. clear M E.
  assert (U : forall c, forallb (fun d => d =? c) ds = false).
  { intros c. destruct (forallb _ ds) eqn:F; [|reflexivity]. rewrite forallb_forall in F. pose proof (F z Iz). pose proof (F z' Iz'). lia. }
  rewrite U. destruct ds as [|d0 ds]; [destruct Iz|]. rewrite U. now eexists.
Qed.
Lemma levels_raise e s : In s (e_signals e) -> ~ levels s -> exists x, each "event_signals" simple_signal (event_val e) = Raise x.
Proof.
  intros I L. unfold each. change (item "event_signals" (event_val e)) with (Ok (VList (map signal_val (e_signals e)))). cbn [bind elements].
  destruct (mapM_raises simple_signal (map signal_val (e_signals e))) as (x & X); [|rewrite X; now exists x]. exists (signal_val s). split; [now apply in_map|]. now apply levels_refused.
Qed.
Lemma events_refused now es e : In e es -> senseless e -> exists x, preflight_events now (map event_val es) = Raise x.
Proof.
  intros I S. unfold preflight_events, distribute_checks. cbn [foldM]. destruct (mapM event_duration (map event_val es)) as [l1|x] eqn:E1; [|now exists x]. cbn [bind].
  pose proof (mapM_known _ _ _ E1) as F.
  assert (D : forall e0, In e0 es -> exists z, event_duration (event_val e0) = Ok (event_val (with_duration z e0)) /\ In (event_val (with_duration z e0)) l1).
  { clear -F. intros e0. remember (map event_val es) as vs eqn:V. revert es V. induction F as [|v d vs ds T _ IH]; intros [|e1 es] V; try discriminate V; [intros []|]. injection V as -> ->. intros [->|I].
    - destruct (event_duration_form e0) as [(x & X)|(z & X)]; [congruence|]. exists z. split; [exact X|]. left. congruence.
    - destruct (IH es eq_refl I) as (z & X & Y). exists z. split; [exact X|now right]. }
  destruct (D e I) as (z & X & J). destruct S as [(s & i & A & B & C)|[(s & s' & y & y' & A & A' & B & B' & C)|(s & A & B)]].
  - destruct (endless_raises e s i A B C) as (x & Y). congruence.
  - destruct (uneven_raises e s s' y y' A A' B B' C) as (x & Y). congruence.
  - destruct (mapM_raises (each "event_signals" simple_signal) l1) as (x & Y); [|rewrite Y; now exists x]. exists (event_val (with_duration z e)). split; [exact J|]. now apply (levels_raise (with_duration z e) s).
Qed.
End Events.

(** ** Offers *)
Section Offers.
Context (ns : string -> string) (known : forall n s, get String.eqb n Measurements.measurement_namespaces = Some s -> ns n = s).
Definition measurement_at (n : string) (m : measurement) : val := VDict [
  ("name", VStr (m_name m)); ("description", VStr (m_description m)); ("unit", VStr (m_unit m)); ("scale", VStr (m_scale m));
  ("power_attributes", or_none power_val (m_power m)); ("pulse_factor", or_none VInt (m_pulse_factor m)); ("ns", VStr n)].
Definition description_with (d : description) (v : val) : val := VDict [
  ("r_id", VStr (rd_r_id d)); ("market_context", text (rd_market d)); ("reading_type", VStr (rd_reading d));
  ("report_subject", or_none (fun s => VDict [("end_device_asset", VDict [("mrid", VStr s)])]) (rd_mrid d));
  ("report_data_source", or_none target_val (rd_source d)); ("report_type", VStr (rd_type d)); ("sampling_rate", or_none sampling_val (rd_sampling d));
  ("measurement", v)].
Definition offer_with (o : offer) (l : list val) : val := VDict [
  ("report_specifier_id", VStr (of_specifier o)); ("report_name", VStr (of_name o)); ("report_request_id", VInt 0);
  ("report_descriptions", VList l); ("created_date_time", VTime (of_created o)); ("duration", period (of_duration o))].

Lemma get_in {A} (k : string) (d : list (string * A)) : In k (map fst d) -> exists v, get String.eqb k d = Some v.
Proof. induction d as [|[k' x] d IH]; [intros []|]. cbn. intros [->|I]; [rewrite String.eqb_refl; now exists x|]. destruct (String.eqb k k'); [now exists x|auto]. Qed.
Lemma get_in_keys {A} (k : string) (d : list (string * A)) v : get String.eqb k d = Some v -> In k (map fst d).
Proof. induction d as [|[k' x] d IH]; [discriminate|]. cbn. destruct (String.eqb_spec k k') as [->|]; [now left|]. intros G. right. now apply IH. Qed.
Lemma unit_in u units : existsb (fun x => the_text x (VStr u)) units = true <-> In u units.
Proof.
  rewrite existsb_exists. split; [intros (x & I & E); cbn in E; apply String.eqb_eq in E; now subst|]. intros I. exists u. split; [exact I|apply String.eqb_refl].
Qed.
Lemma power_ok n m : m_power m <> None -> power_given (measurement_at n m) = Ok (measurement_at n m).
Proof. intros P. unfold power_given, measurement_at. destruct (m_power m); [reflexivity|congruence]. Qed.
Lemma validate_form n m : validate_measurement (measurement_at n m) =
  bind (match get String.eqb (m_name m) measurement_descriptions with
        | Some required =>
          bind (if String.eqb (m_description m) required then Ok (measurement_at n m)
                else if String.eqb (lower (m_description m)) (lower required) then Ok (put "description" (VStr required) (measurement_at n m))
                else Raise ValueError) (fun v =>
          match get String.eqb (m_name m) acceptable_units with
          | Some units => if existsb (fun u => the_text u (VStr (m_unit m))) units then Ok v else Raise ValueError
          | None => Raise KeyError
          end)
        | None => Ok (if String.eqb (m_name m) "customUnit" then measurement_at n m else put "name" (VStr "customUnit") (measurement_at n m))
        end) (fun v => if contains "power" (m_name m) then power_given v else Ok v).
Proof. reflexivity. Qed.
Local Opaque measurement_descriptions acceptable_units contains.
Lemma measurement_validated n m m' : settled_measurement m m' -> validate_measurement (measurement_at n m) = Ok (measurement_at n m').
Proof.
  intros (E1 & E2 & E3 & E4 & C & P & _). rewrite validate_form.
  assert (M : forall x, measurement_at n m' = x -> (if contains "power" (m_name m) then power_given x else Ok x) = Ok (measurement_at n m')).
  { intros x <-. destruct (contains "power" (m_name m)); [|reflexivity]. apply power_ok. rewrite E4. now apply P. }
  destruct C as [(required & units & -> & -> & SL & IU & N & D)|(-> & N & D)].
  - apply unit_in in IU. rewrite IU. destruct (String.eqb_spec (m_description m) required) as [E|_]; [|unfold same_letters in SL; rewrite SL, String.eqb_refl]; cbn [bind]; apply M; unfold measurement_at; now rewrite E1, E2, E3, E4, N, D, <- ?E.
  - cbn [bind]. apply M. destruct (String.eqb_spec (m_name m) "customUnit") as [E|_]; unfold measurement_at; now rewrite E1, E2, E3, E4, N, D, <- ?E.
Qed.
Lemma measurement_placed n m : In (m_name m) (map fst Measurements.measurement_namespaces) -> add_ns (measurement_at n m) = Ok (measurement_val ns m).
Proof.
  intros I. unfold add_ns. change (item "name" (measurement_at n m)) with (Ok (VStr (m_name m))). cbn [bind]. destruct (get_in _ _ I) as (s & G). rewrite G. rewrite <- (known _ _ G). reflexivity.
Qed.
Lemma measured_with f d v : measured f (description_with d v) = match v with VNone => Ok (description_with d v) | _ => bind (f v) (fun v' => Ok (description_with d v')) end.
Proof. reflexivity. Qed.

Lemma report_renamed o o' : settled_name (of_name o) (of_name o') -> of_duration o' = of_duration o -> of_specifier o' = of_specifier o -> of_created o' = of_created o ->
  forall l, report_name (offer_with o l) = Ok (offer_with o' l).
Proof.
  intros S E1 E2 E3 l. unfold report_name. change (item "report_name" (offer_with o l)) with (Ok (VStr (of_name o))). cbn [bind]. unfold settled_name in S. cbn [existsb] in S.
  assert (P : offer_with o' l = put "report_name" (VStr (of_name o')) (offer_with o l)) by (unfold offer_with; now rewrite E1, E2, E3).
  assert (K : put "report_name" (VStr (of_name o)) (offer_with o l) = offer_with o l) by reflexivity. rewrite P.
  assert (R : inb (of_name o) REPORT_NAME_values && negb (startswith "METADATA" (of_name o)) =
    existsb (String.eqb (of_name o)) ["HISTORY_GREENBUTTON"; "HISTORY_USAGE"; "TELEMETRY_STATUS"; "TELEMETRY_USAGE"]).
  { unfold inb, REPORT_NAME_values. cbn [existsb]. repeat match goal with |- context [String.eqb (of_name o) ?s] => destruct (String.eqb_spec (of_name o) s) as [->|_]; [reflexivity|] end. reflexivity. }
  rewrite R. cbn [existsb] in *. destruct (_ || _); rewrite S; [reflexivity|now rewrite K].
Qed.
Lemma each_description f o l l' : mapM f l = Ok l' -> each "report_descriptions" f (offer_with o l) = Ok (offer_with o l').
Proof. intros E. unfold each. change (item "report_descriptions" (offer_with o l)) with (Ok (VList l)). cbn [bind elements]. rewrite E. reflexivity. Qed.
Lemma each_description_raises f o l x : mapM f l = Raise x -> each "report_descriptions" f (offer_with o l) = Raise x.
Proof. intros E. unfold each. change (item "report_descriptions" (offer_with o l)) with (Ok (VList l)). cbn [bind elements]. now rewrite E. Qed.

Lemma offer_checked o o' : settled_offer o o' -> preflight_report (offer_val ns o) = Ok (offer_val ns o').
Proof.
  intros (E1 & E2 & E3 & N & F). unfold preflight_report. change (offer_val ns o) with (offer_with o (map (description_val ns) (of_descriptions o))). rewrite (report_renamed o o' N E1 E2 E3). cbn [bind].
  set (halfway := fun d d' => description_with d' (match rd_measurement d, rd_measurement d' with Some m, Some m' => measurement_at (ns (m_name m)) m' | _, _ => VNone end)).
  set (l1 := map (fun p => halfway (fst p) (snd p)) (combine (of_descriptions o) (of_descriptions o'))).
  rewrite (each_description _ o' _ l1).
  - cbn [bind]. change (offer_val ns o') with (offer_with o' (map (description_val ns) (of_descriptions o'))). apply each_description, mapM_Forall2. subst l1. clear -F known. induction F as [|d d' l l' S _ IH]; cbn [combine map]; constructor; [|exact IH].
    cbn [fst snd]. subst halfway. cbn beta. rewrite measured_with. destruct S as (S1 & S2 & S3 & S4 & S5 & S6 & S7 & S). unfold settled_opt in S. change (description_val ns d') with (description_with d' (or_none (measurement_val ns) (rd_measurement d'))).
    destruct (rd_measurement d) as [m|], (rd_measurement d') as [m'|]; try destruct S; [|reflexivity]. cbn [or_none].
    assert (I : In (m_name m') (map fst Measurements.measurement_namespaces)) by tauto. pose proof (measurement_placed (ns (m_name m)) m' I) as P. unfold measurement_at at 1. rewrite P. reflexivity.
  - apply mapM_Forall2. subst l1. clear -F. induction F as [|d d' l l' S _ IH]; cbn [combine map]; constructor; [|exact IH].
    cbn [fst snd]. subst halfway. cbn beta. destruct S as (S1 & S2 & S3 & S4 & S5 & S6 & S7 & S). unfold settled_opt in S. change (description_val ns d) with (description_with d (or_none (measurement_val ns) (rd_measurement d))). rewrite measured_with.
    assert (W : forall v, description_with d v = description_with d' v) by (intros v; unfold description_with; now rewrite S1, S2, S3, S4, S5, S6, S7).
    destruct (rd_measurement d) as [m|], (rd_measurement d') as [m'|]; try destruct S; [|now rewrite <- W]. cbn [or_none].
    change (measurement_val ns m) with (measurement_at (ns (m_name m)) m). assert (SM : settled_measurement m m') by (now repeat split). pose proof (measurement_validated (ns (m_name m)) m m' SM) as P. unfold measurement_at at 1. rewrite P. cbn [bind]. now rewrite W.
Qed.

(** *** Offers that cannot be made *)
Lemma power_refused n m : m_power m = None -> exists x, power_given (measurement_at n m) = Raise x.
Proof. intros P. unfold power_given, measurement_at. rewrite P. now eexists. Qed.
Lemma measurement_refused n m : senseless_measurement m -> (exists x, validate_measurement (measurement_at n m) = Raise x) \/
  exists m', validate_measurement (measurement_at n m) = Ok (measurement_at n m') /\ exists x, add_ns (measurement_at n m') = Raise x.
Proof.
  intros S. rewrite validate_form.
  assert (D : forall m' , (exists x, (if contains "power" (m_name m) then power_given (measurement_at n m') else Ok (measurement_at n m')) = Raise x) \/
              (if contains "power" (m_name m) then power_given (measurement_at n m') else Ok (measurement_at n m')) = Ok (measurement_at n m')).
  { intros m'. destruct (contains "power" (m_name m)); [|now right]. destruct (m_power m') eqn:P; [right; apply power_ok; congruence|left; now apply power_refused]. }
  destruct S as [(required & G & N)|[(units & G & U & N)|[(C & P)|(G & N)]]].
  - left. rewrite G. unfold same_letters in N. destruct (String.eqb_spec (m_description m) required) as [E|_]; [destruct N; now rewrite E|]. destruct (String.eqb_spec (lower (m_description m)) (lower required)) as [E|_]; [contradiction|]. now eexists.
  - left. destruct (get String.eqb (m_name m) measurement_descriptions) as [required|]; [|congruence]. rewrite U. destruct (existsb _ units) eqn:E; [apply unit_in in E; contradiction|].
    destruct (String.eqb _ _); [now eexists|]. destruct (String.eqb _ _); now eexists.
  - left. rewrite C. assert (Q : forall m', m_power m' = None -> exists x, power_given (measurement_at n m') = Raise x) by apply power_refused.
    destruct (get String.eqb (m_name m) measurement_descriptions) as [required|].
    + destruct (String.eqb _ _); [|destruct (String.eqb _ _); [|now eexists]]; cbn [bind]; (destruct (get String.eqb (m_name m) acceptable_units) as [units|]; [|now eexists]); (destruct (existsb _ units); [|now eexists]); cbn [bind].
      * now apply Q.
      * apply (Q (mk_measurement (m_name m) required (m_unit m) (m_pulse_factor m) (m_scale m) (m_power m))). exact P.
    + cbn [bind]. destruct (String.eqb _ _); [now apply Q|]. apply (Q (mk_measurement "customUnit" (m_description m) (m_unit m) (m_pulse_factor m) (m_scale m) (m_power m))). exact P.
  - destruct (get String.eqb (m_name m) measurement_descriptions) as [required|]; [|congruence].
    assert (A : forall m', m_name m' = m_name m -> exists x, add_ns (measurement_at n m') = Raise x).
    { intros m' E. unfold add_ns. change (item "name" (measurement_at n m')) with (Ok (VStr (m_name m'))). cbn [bind]. rewrite E. destruct (get String.eqb (m_name m) Measurements.measurement_namespaces) eqn:G'; [|now eexists]. destruct N.
      apply (get_in_keys _ _ _ G'). }
    destruct (String.eqb _ _); [|destruct (String.eqb _ _); [|left; now eexists]]; cbn [bind]; (destruct (get String.eqb (m_name m) acceptable_units) as [units|]; [|left; now eexists]); (destruct (existsb _ units); [|left; now eexists]); cbn [bind].
    + destruct (D m) as [X|X]; [now left|]. right. exists m. split; [exact X|now apply A].
    + destruct (D (mk_measurement (m_name m) required (m_unit m) (m_pulse_factor m) (m_scale m) (m_power m))) as [X|X]; [now left|]. right. eexists. split; [exact X|now apply A].
Qed.
Lemma offer_refused o d m : In d (of_descriptions o) -> rd_measurement d = Some m -> senseless_measurement m -> exists x, preflight_report (offer_val ns o) = Raise x.
Proof.
  intros I E S. unfold preflight_report. change (offer_val ns o) with (offer_with o (map (description_val ns) (of_descriptions o))).
  assert (R : exists o', forall l, report_name (offer_with o l) = Ok (offer_with o' l)).
  { exists (mk_offer (of_duration o) (of_descriptions o) (of_specifier o) (if existsb (String.eqb (of_name o)) ["HISTORY_GREENBUTTON"; "HISTORY_USAGE"; "TELEMETRY_STATUS"; "TELEMETRY_USAGE"] then "METADATA_" ++ of_name o else of_name o) (of_created o)).
    intros l. apply report_renamed; try reflexivity. unfold settled_name. cbn [of_name]. now destruct (existsb _ _). }
  destruct R as (o' & R). rewrite R. cbn [bind]. destruct (mapM (measured validate_measurement) (map (description_val ns) (of_descriptions o))) as [l1|x] eqn:M; [|rewrite (each_description_raises _ _ _ _ M); now exists x].
  rewrite (each_description _ _ _ _ M). cbn [bind]. apply mapM_known in M.
  assert (J : exists y, In y l1 /\ measured validate_measurement (description_val ns d) = Ok y).
  { revert M I. generalize (of_descriptions o). clear. intros l M. remember (map (description_val ns) l) as vs eqn:V. revert l V. induction M as [|v y vs ys T _ IH]; intros [|d0 l] V; try discriminate V; [intros []|]. injection V as -> ->. intros [->|I].
    - exists y. split; [now left|exact T].
    - destruct (IH l eq_refl I) as (z & Z1 & Z2). exists z. split; [now right|exact Z2]. }
  destruct J as (y & J & Y). change (description_val ns d) with (description_with d (or_none (measurement_val ns) (rd_measurement d))) in Y. rewrite measured_with, E in Y. cbn [or_none] in Y. change (measurement_val ns m) with (measurement_at (ns (m_name m)) m) in Y.
  destruct (measurement_refused (ns (m_name m)) m S) as [(x & X)|(m' & V & x & X)].
  - unfold measurement_at in Y at 1. rewrite X in Y. discriminate Y.
  - unfold measurement_at in Y at 1. rewrite V in Y. cbn [bind] in Y. injection Y as <-.
    destruct (mapM_raises (measured add_ns) l1) as (x' & X'); [|exists x'; now apply each_description_raises]. eexists. split; [exact J|]. rewrite measured_with. unfold measurement_at at 1. rewrite X. now exists x.
Qed.
End Offers.
