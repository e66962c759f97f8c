(** The payloads of MessageProofs, in the vocabulary of MessageSpec. *)
From Coq Require Import ZArith String Ascii List Bool Lia.
From Verif.Base Require Import Result Dict PyStr ListExtra.
From Verif.Model Require Import Text Duration DateTime Normalize Xml.
From Verif.Spec Require Import Instants TextSpec MessageSpec.
From Verif.Proofs Require Import NormalizeProofs MessageProofs.
Import ListNotations.
Local Open Scope string_scope.
Local Open Scope Z_scope.

Lemma read_time_is t : good_time t -> is_time t (read_time t).
Proof. intros G. destruct (good_time_read t G) as (_ & u & i & _ & R & D & D'). exists u, i. now rewrite R. Qed.
Lemma nonzero_is o : nonzero o = nonzero_opt o.
Proof. destruct o as [[| |]|]; reflexivity. Qed.
Lemma nonempty_is o : nonempty_text o = match o with Some s => if String.eqb s "" then None else Some s | None => None end.
Proof. destruct o as [[|c s]|]; reflexivity. Qed.

Ltac here := eexists; split; [reflexivity|]; try reflexivity.
Lemma is_list_map {A} (P : A -> val -> Prop) (f : A -> vdict) l : (forall a, In a l -> P a (VDict (f a))) -> is_list P l (VList (map VDict (map f l))).
Proof.
  intros H. exists (map VDict (map f l)). split; [reflexivity|]. induction l as [|a l IH]; constructor; [apply H; now left|].
  apply IH. intros b I. apply H. now right.
Qed.

Section Arrival.
Context (num : numbers).

Lemma response_arrived_payload r : response_arrived r (VDict (steps_payload (response_steps r))).
Proof. unfold response_steps, response_arrived. destruct (er_description r); repeat split; try here. Qed.

Lemma report_interval_arrived_payload i : good_report_interval num i -> report_interval_arrived i (VDict (steps_payload (report_interval_steps i))).
Proof.
  intros (A & B & C & D & E1 & E2 & E3). pose proof (read_time_is _ A) as T. unfold report_interval_steps, report_interval_arrived.
  destruct i as [t du [rid cf ac v dq]]. cbn [ri_dtstart ri_duration ri_payload rp_r_id rp_confidence rp_accuracy rp_value rp_data_quality] in *.
  unfold report_payload_members. cbn [rp_r_id rp_confidence rp_accuracy rp_value rp_data_quality].
  destruct du, cf, ac, dq; (split; [here; exact T|]); repeat split; here.
Qed.
Lemma report_arrived_payload r : good_report num r -> report_arrived r (VDict (steps_payload (report_steps r))).
Proof.
  intros (A & B & C & D & E1 & E2). pose proof (read_time_is _ E2) as T.
  assert (L : is_list report_interval_arrived (rt_intervals r) (VList (map VDict (map (fun i => steps_payload (report_interval_steps i)) (rt_intervals r))))).
  { apply is_list_map. intros i I. apply report_interval_arrived_payload. rewrite Forall_forall in B. now apply B. }
  unfold report_steps, report_arrived. rewrite <- nonempty_is.
  destruct (rt_dtstart r) as [t|]; [pose proof (read_time_is _ A) as T'|]; destruct (rt_intervals r), (nonempty_text (rt_name r));
    repeat split; try reflexivity; here; assumption.
Qed.

Lemma interval_arrived_payload ix i : good_interval num i -> interval_arrived ix i (VDict (steps_payload (interval_steps ix i))).
Proof.
  intros (A & B & C). unfold interval_steps, interval_arrived.
  destruct (i_dtstart i) as [t|]; [pose proof (read_time_is _ A) as T|]; destruct (i_duration i); repeat split; try reflexivity; here; assumption.
Qed.
Lemma intervals_nth l : forall k ix i, nth_error l k = Some i -> nth_error (map VDict (intervals_payload ix l)) k = Some (VDict (steps_payload (interval_steps (ix + k) i))).
Proof.
  induction l as [|j l IH]; intros [|k] ix i H; try discriminate; cbn [intervals_payload map nth_error] in *.
  - injection H as ->. now rewrite Nat.add_0_r.
  - rewrite (IH k (S ix) i H). now rewrite Nat.add_succ_comm.
Qed.
Lemma intervals_length l : forall ix, length (intervals_payload ix l) = length l.
Proof. induction l as [|i l IH]; intros ix; [reflexivity|]. cbn. now rewrite IH. Qed.
Lemma intervals_arrived l : Forall (good_interval num) l ->
  exists vs, VList (map VDict (intervals_payload 0 l)) = VList vs /\ length vs = length l /\
    forall n i y, nth_error l n = Some i -> nth_error vs n = Some y -> interval_arrived n i y.
Proof.
  intros G. eexists. split; [reflexivity|]. split; [now rewrite map_length, intervals_length|].
  intros n i y H Y. rewrite (intervals_nth l n 0 i H) in Y. injection Y as <-. apply interval_arrived_payload.
  rewrite Forall_forall in G. apply G. now apply nth_error_In in H.
Qed.

Lemma measurement_arrived_members m : measurement_arrived m (VDict (measurement_members m)).
Proof.
  unfold measurement_arrived, measurement_members. rewrite <- nonzero_is. destruct (nonzero (m_pulse_factor m)), (m_power m); repeat split; try here.
  all: repeat split; here.
Qed.
Lemma signal_members_but s m : good_signal num s -> signal_arrived_but_measurement s (VDict (signal_members s m)).
Proof.
  intros (_ & F & _). pose proof (intervals_arrived _ F) as I. unfold signal_arrived_but_measurement, signal_members.
  destruct (s_current_value s); (split; [here; exact I|]); repeat split; here.
Qed.
Lemma signal_members_arrived s m : good_signal num s -> s_measurement s = Some m -> signal_arrived s (VDict (signal_members s m)).
Proof.
  intros G E. split; [now apply signal_members_but|]. rewrite E. unfold signal_members.
  destruct (s_current_value s); here; apply measurement_arrived_members.
Qed.
(** The raw form of a signal never has the uniform measurement. *)
Lemma member_app k a b : member k (a ++ b)%list = match member k a with Some v => Some v | None => member k b end.
Proof. induction a as [|[k' v] a IH]; [reflexivity|]. cbn [app member]. now destruct (String.eqb k k'). Qed.
Lemma namespace_other k m : In m measurement_namespaces -> ~ In k measurement_namespaces -> String.eqb k m = false.
Proof. intros I N. apply String.eqb_neq. now intros ->. Qed.
Lemma raw_member s k : good good_measurement (s_measurement s) -> ~ In k measurement_namespaces ->
  member k (steps_payload (signal_steps s)) =
  member k ([("intervals", VList (map VDict (intervals_payload 0 (s_intervals s)))); ("signal_name", VStr (s_name s)); ("signal_type", VStr (s_type s));
    ("signal_id", VStr (s_id s))] ++ match s_current_value s with Some x => [("current_value", VFloat (show_number x))] | None => [] end)%list.
Proof.
  intros G N. unfold signal_steps, steps_payload. destruct (s_measurement s) as [m|]; destruct (s_current_value s); cbn [ostep flat_map snd app member].
  1, 2: rewrite (namespace_other k (m_name m)); [reflexivity|apply G|assumption].
  all: reflexivity.
Qed.
Lemma raw_signal s : good_signal num s -> signal_arrived_but_measurement s (VDict (steps_payload (signal_steps s))) /\ at_path ["measurement"] (VDict (steps_payload (signal_steps s))) = None.
Proof.
  intros (_ & F & _ & _ & _ & G & _). pose proof (intervals_arrived _ F) as I.
  assert (P : forall k, ~ In k measurement_namespaces -> at_path [k] (VDict (steps_payload (signal_steps s)))
     = member k ([("intervals", VList (map VDict (intervals_payload 0 (s_intervals s)))); ("signal_name", VStr (s_name s)); ("signal_type", VStr (s_type s));
    ("signal_id", VStr (s_id s))] ++ match s_current_value s with Some x => [("current_value", VFloat (show_number x))] | None => [] end)%list).
  { intros k N. cbn [at_path]. rewrite (raw_member s k G N). destruct (member k _); reflexivity. }
  assert (Q : forall k, existsb (String.eqb k) measurement_namespaces = false -> ~ In k measurement_namespaces).
  { intros k E J. apply existsb_in in J. congruence. }
  split; [|rewrite P by (apply Q; reflexivity); destruct (s_current_value s); reflexivity].
  unfold signal_arrived_but_measurement, holds. rewrite !P by (apply Q; reflexivity).
  split; [eexists; split; [reflexivity|exact I]|].
  split; [eexists; split; reflexivity|]. split; [eexists; split; reflexivity|]. split; [eexists; split; reflexivity|].
  destruct (s_current_value s) as [x|] eqn:E; cbn [holds_opt]; unfold holds; rewrite P by (apply Q; reflexivity); [|reflexivity].
  eexists. split; reflexivity.
Qed.

(** What arrives of the measurements. *)
Lemma received_length l : length (received l) = length l.
Proof. induction l as [|s l IH]; [reflexivity|]. cbn [received]. destruct (s_measurement s); cbn [length map]; [now rewrite IH|now rewrite map_length]. Qed.
Lemma received_but l : Forall (good_signal num) l -> is_list signal_arrived_but_measurement l (VList (map VDict (received l))).
Proof.
  intros F. exists (map VDict (received l)). split; [reflexivity|]. induction F as [|s l G F IH]; [constructor|]. cbn [received].
  destruct (s_measurement s) as [m|]; cbn [map].
  - constructor; [now apply signal_members_but|exact IH].
  - constructor; [now apply raw_signal|]. clear IH. induction F as [|t l Gt F IH]; constructor; [now apply raw_signal|exact IH].
Qed.
Lemma measured_first_tail s l : measured_first (s :: l) -> measured_first l.
Proof. intros M a s' b t c ->. now apply (M (s :: a) s' b t c). Qed.
Lemma raws_none (raw : signal -> vdict) l : Forall (fun s => at_path ["measurement"] (VDict (raw s)) = None) l ->
  Forall2 signal_arrived l (map VDict (map raw l)) -> Forall (fun s => s_measurement s = None) l.
Proof.
  intros F. induction F as [|s l R F IH]; intros A; [constructor|]. cbn [map] in A. inversion A as [|? ? ? ? A1 A2]; subst.
  constructor; [|now apply IH]. destruct A1 as [_ A1]. destruct (s_measurement s); [|reflexivity].
  destruct A1 as (v & V & _). congruence.
Qed.
Lemma received_complete l : Forall (good_signal num) l -> (is_list signal_arrived l (VList (map VDict (received l))) <-> measured_first l).
Proof.
  intros F. split.
  - intros (vs & E & A). injection E as <-. revert A. induction F as [|s l G F IH]; intros A a s' b t c H N; [now destruct a|]. cbn [received] in A.
    destruct (s_measurement s) as [m|] eqn:Es; cbn [map] in A; inversion A as [|? ? ? ? _ A']; subst.
    + destruct a as [|a0 a]; [injection H as -> _; congruence|]. injection H as -> ->. exact (IH A' a s' b t c eq_refl N).
    + assert (L : Forall (fun s => s_measurement s = None) l).
      { eapply raws_none; [|exact A']. eapply Forall_impl; [|exact F]. intros x Gx. now apply raw_signal. }
      rewrite Forall_forall in L. destruct a as [|a0 a]; injection H as -> ->; apply L, in_or_app; right; [now left|].
      right. apply in_or_app. right. now left.
  - intros M. exists (map VDict (received l)). split; [reflexivity|]. induction F as [|s l G F IH]; [constructor|]. cbn [received].
    destruct (s_measurement s) as [m|] eqn:Es; cbn [map].
    + constructor; [now apply signal_members_arrived|]. apply IH. now apply measured_first_tail in M.
    + assert (L : Forall (fun s => s_measurement s = None) l).
      { apply Forall_forall. intros t I. apply in_split in I as (b & c & ->). now apply (M [] s b t c). }
      constructor.
      * destruct (raw_signal s G) as [B N]. split; [exact B|]. rewrite Es. exact N.
      * clear - F L. induction F as [|x l G F IH]; constructor; inversion L; subst.
        -- destruct (raw_signal x G) as [B N]. split; [exact B|]. match goal with H : s_measurement x = None |- _ => rewrite H end. exact N.
        -- now apply IH.
Qed.

Lemma descriptor_arrived_payload e : good_descriptor e -> descriptor_arrived e (VDict (steps_payload (descriptor_steps e))).
Proof.
  intros (A & B & C & D & E1 & E2 & E3). pose proof (read_time_is _ E1) as T. unfold descriptor_steps, descriptor_arrived.
  destruct (d_modification_date_time e) as [t|]; [pose proof (read_time_is _ B) as T'|];
    destruct (d_modification_reason e), (d_priority e), (d_test_event e), (d_vtn_comment e); repeat split; try reflexivity; here; assumption.
Qed.
Lemma period_arrived_payload a : good_period a -> period_arrived a (VDict (steps_payload (period_steps a))).
Proof.
  intros (A & B & _). pose proof (read_time_is _ A) as T. unfold period_steps, period_arrived. rewrite <- !nonzero_is.
  destruct (a_startafter a), (nonzero (a_notification a)), (nonzero (a_ramp_up a)), (nonzero (a_recovery a)); repeat split; try reflexivity; here; assumption.
Qed.

Lemma targets_arrived_members ts (pre : vdict) rr (final : vdict) :
  (final = target_members ts \/ final = target_members' ts) -> member "targets" pre = None -> member "targets_by_type" pre = None ->
  targets_arrived ts (VDict (pre ++ final ++ [("response_required", rr)])%list).
Proof.
  intros F N1 N2. split.
  - cbn [at_path]. rewrite member_app, N1.
    assert (E : VList (map VDict (map (fun kv => [kv]) (event_targets ts))) = VList (flat_map (fun kf => map (fun s => VDict [(fst kf, VStr s)]) (targets_of (snd kf) ts)) kinds)).
    { unfold event_targets, target_groups, kinds. cbn [flat_map group_targets fst snd]. rewrite !map_app, !map_map. reflexivity. }
    rewrite <- E. destruct F as [-> | ->]; reflexivity.
  - intros k f I. cbn [at_path]. rewrite member_app, N2.
    assert (E : member "targets_by_type" (final ++ [("response_required", rr)])%list = Some (VDict (event_types ts)) \/
                (event_types ts = [] /\ member "targets_by_type" (final ++ [("response_required", rr)])%list = None)).
    { destruct F as [-> | ->]; [left; reflexivity|]. unfold target_members'. destruct (event_types ts); [right; split; reflexivity|left; reflexivity]. }
    assert (W : (match member k (event_types ts) with Some x => Some x | None => None end) = match targets_of f ts with [] => None | l => Some (VList (map VStr l)) end).
    { clear - I. unfold event_types, target_groups. unfold kinds in I. simpl in I.
      destruct I as [I|[I|[I|[I|[I|[]]]]]]; injection I as <- <-;
      destruct (targets_of t_group_id ts), (targets_of t_group_name ts), (targets_of t_resource_id ts), (targets_of t_ven_id ts), (targets_of t_party_id ts); reflexivity. }
    destruct E as [E|[E1 E2]].
    + rewrite E. rewrite <- W. destruct (member k (event_types ts)); reflexivity.
    + rewrite E2, <- W, E1. reflexivity.
Qed.

Lemma event_arrived_payload (S : list signal -> val -> Prop) e p : good_event num e ->
  (p = event_once e \/ p = event_twice e) ->
  (event_arrived S e (VDict (with_response e p)) <-> S (e_signals e) (VList (map VDict (received (e_signals e))))).
Proof.
  intros (D & A & N & F & T & R) P. unfold event_arrived.
  pose proof (descriptor_arrived_payload _ D) as D'. pose proof (period_arrived_payload _ A) as A'.
  assert (E : exists final, with_response e p = (steps_payload (event_steps e) ++ final ++ [("response_required", VStr (e_response_required e))])%list /\
              match e_targets e with Some ts => final = target_members ts \/ final = target_members' ts | None => final = [] end).
  { unfold with_response. destruct P as [-> | ->]; unfold event_once, event_twice; (eexists; split; [rewrite <- app_assoc; reflexivity|]); destruct (e_targets e); auto. }
  destruct E as (final & -> & Ef).
  assert (X : holds (VDict (steps_payload (event_steps e) ++ final ++ [("response_required", VStr (e_response_required e))])%list) ["event_descriptor"] (descriptor_arrived (e_descriptor e)))
    by (eexists; split; [reflexivity|exact D']).
  assert (Y : holds (VDict (steps_payload (event_steps e) ++ final ++ [("response_required", VStr (e_response_required e))])%list) ["active_period"] (period_arrived (e_active_period e)))
    by (eexists; split; [reflexivity|exact A']).
  assert (Z : at_path ["response_required"] (VDict (steps_payload (event_steps e) ++ final ++ [("response_required", VStr (e_response_required e))])%list) = Some (VStr (e_response_required e))).
  { destruct (e_targets e) as [ts|]; [|now rewrite Ef]. destruct Ef as [-> | ->]; [reflexivity|]. unfold target_members'. destruct (event_types ts); reflexivity. }
  assert (W : match e_targets e with
              | None => at_path ["targets"] (VDict (steps_payload (event_steps e) ++ final ++ [("response_required", VStr (e_response_required e))])%list) = None /\
                        at_path ["targets_by_type"] (VDict (steps_payload (event_steps e) ++ final ++ [("response_required", VStr (e_response_required e))])%list) = None
              | Some ts => targets_arrived ts (VDict (steps_payload (event_steps e) ++ final ++ [("response_required", VStr (e_response_required e))])%list) end).
  { destruct (e_targets e) as [ts|]; [|rewrite Ef; now split]. now apply targets_arrived_members. }
  split.
  - intros (_ & _ & (v & V & Sv) & _). change (Some (VList (map VDict (received (e_signals e)))) = Some v) in V. now injection V as <-.
  - intros Sv. split; [exact X|]. split; [exact Y|]. split; [eexists; split; [reflexivity|exact Sv]|]. split; [|exact W]. eexists. split; [exact Z|reflexivity].
Qed.
Lemma received_events_arrived (S : list signal -> val -> Prop) es : Forall (good_event num) es ->
  (is_list (event_arrived S) es (VList (map VDict (received_events es))) <-> Forall (fun e => S (e_signals e) (VList (map VDict (received (e_signals e))))) es).
Proof.
  intros F.
  assert (G : exists f, (forall e, f e = event_once e \/ f e = event_twice e) /\ received_events es = map (fun e => with_response e (f e)) es).
  { unfold received_events. destruct es as [|e [|e2 es]]; [exists event_once; split; [auto|reflexivity] .. |exists event_twice; split; [auto|reflexivity]]. }
  destruct G as (f & Hf & ->). rewrite map_map. split.
  - intros (vs & E & A). injection E as <-. clear - F Hf A. induction F as [|e es G F IH]; [constructor|]. cbn [map] in A. inversion A; subst.
    constructor; [|now apply IH]. now apply (event_arrived_payload S e (f e) G (Hf e)).
  - intros A. eexists. split; [reflexivity|]. clear - F Hf A. induction F as [|e es G F IH]; [constructor|]. inversion A; subst. cbn [map].
    constructor; [|now apply IH]. now apply (event_arrived_payload S e (f e) G (Hf e)).
Qed.

(** One text by itself *)
Lemma text_field_keys tag key : In (tag, key) text_fields -> text_key tag key = true.
Proof.
  intros I. unfold text_fields in I. simpl in I. repeat (destruct I as [I|I]; [injection I as <- <-; reflexivity|]). contradiction.
Qed.
Lemma text_val_cases s : text_val s = VNone \/ text_val s = VStr (flatten_xml s).
Proof. unfold text_val. destruct (flatten_xml s); auto. Qed.
Lemma one_scalar n k k' v : text_key k k' = true -> scalar_val v = true ->
  normalize num (S n) [(k, v)] = match interpret num (normalize_key k) v with Ok w => if scalar_val w then Ok [(k', w)] else normalize num (S n) [(k, v)] | Raise x => Raise x end.
Proof.
  intros K V. unfold text_key, keyed in K. rewrite !andb_true_iff, !negb_true_iff, !String.eqb_eq in K.
  destruct K as (((((K & L) & _) & _) & _) & _). destruct K as (((((A & B) & C) & _) & D) & E).
  destruct (interpret num (normalize_key k) v) as [w|x] eqn:I.
  - destruct (scalar_val w) eqn:W; [|reflexivity].
    pose proof (adds_general num n k v w (Some w) A) as G. rewrite B in G.
    specialize (G C). rewrite value_scalar in G by assumption. specialize (G I).
    specialize (G (unnest_leaf num k' w L ltac:(now destruct w))).
    pose proof (run num n [((k, v), [(k', w)])]) as R. cbn [map fst snd concat app] in R. apply R; [constructor; [exact G|constructor]|]. rewrite B. reflexivity.
  - change (foldM (entry num (normalize num n)) [(k, v)] [] = Raise x). cbn [foldM].
    assert (H : entry num (normalize num n) [] (k, v) = Raise x).
    { unfold entry. rewrite A. cbv zeta. destruct v; try discriminate V; cbv iota beta; rewrite I; reflexivity. }
    rewrite H. reflexivity.
Qed.
Lemma interpret_scalar k v w : duration_key k = false -> scalar_val v = true -> interpret num k v = Ok w -> scalar_val w = true.
Proof.
  intros D V H. destruct v; try discriminate V; unfold duration_key, interpret in *; rewrite D in H.
  all: try (injection H as <-; reflexivity).
  destruct (contains "date_time" k || (k =? "dtstart")%string).
  - destruct (parse_datetime s) as [[t|t]|x]; try discriminate H; injection H as <-; reflexivity.
  - destruct ((s =? "true")%string || (s =? "false")%string); [injection H as <-; reflexivity|].
    destruct (looks_int s); [injection H as <-; reflexivity|].
    destruct (looks_float s); [destruct (float_ok num s); [injection H as <-; reflexivity|discriminate H]|injection H as <-; reflexivity].
Qed.
Lemma text_arrives_iff n k k' s : text_key k k' = true -> (normalize num (S n) [(k, text_val s)] = Ok [(k', VStr s)] <-> plain s).
Proof.
  intros K. pose proof K as K0. unfold text_key in K0. rewrite !andb_true_iff, !negb_true_iff in K0. destruct K0 as (((((_ & _) & D1) & T1) & _) & _). split.
  - intros H. destruct (text_val_cases s) as [E|E]; rewrite E in H.
    + rewrite (one_scalar n k k') in H by (assumption || reflexivity). rewrite interpret_done in H by (reflexivity || assumption). discriminate H.
    + rewrite (one_scalar n k k') in H by (assumption || reflexivity).
      destruct (interpret num (normalize_key k) (VStr (flatten_xml s))) as [w|] eqn:I; [|discriminate H].
      rewrite (interpret_scalar _ (VStr (flatten_xml s)) w D1 eq_refl I) in H. injection H as ->.
      assert (F : flatten_xml s = s).
      { pose proof I as J. rewrite interpret_text in J by assumption.
        destruct ((flatten_xml s =? "true")%string || (flatten_xml s =? "false")%string); [discriminate J|]. destruct (looks_int (flatten_xml s)); [discriminate J|].
        destruct (looks_float (flatten_xml s)); [destruct (float_ok num (flatten_xml s)); discriminate J|]. now injection J as ->. }
      pose proof (flatten_trimmed s) as [T N]. rewrite F in *. split.
      * split; [|now split]. intros ->. discriminate E.
      * now apply (interpret_plain_iff num (normalize_key k) s D1 T1).
  - intros P. rewrite text_val_one_line by apply P. pose proof (run num n [((k, VStr s), [(k', VStr s)])]) as R. cbn [map fst snd concat app] in R.
    apply R; [constructor; [now apply adds_text|constructor]|].
    unfold text_key, keyed in K. rewrite !andb_true_iff, !negb_true_iff, !String.eqb_eq in K. destruct K as (((((K & _) & _) & _) & _) & _).
    destruct K as (((((A & ->) & C) & _) & D) & E). reflexivity.
Qed.

(** A value that cannot be read makes the message unreadable. *)
Lemma run_raise n before d kv rest e : normalize num (S n) before = Ok d -> entry num (normalize num n) d kv = Raise e ->
  normalize num (S n) (before ++ kv :: rest)%list = Raise e.
Proof.
  intros B H. change (foldM (entry num (normalize num n)) (before ++ kv :: rest)%list [] = Raise e). rewrite foldM_app.
  change (foldM (entry num (normalize num n)) before [] = Ok d) in B. rewrite B. cbn [bind foldM]. rewrite H. reflexivity.
Qed.
Lemma entry_raise n d k its e : startswith "@" k = false -> normalize num n its = Raise e -> entry num (normalize num n) d (k, VDict its) = Raise e.
Proof. intros A V. unfold entry. rewrite A. cbv zeta. rewrite V. reflexivity. Qed.
Lemma step_payload_int n z : good_step num (S n) (node "payloadInt" [leaf "value" (str_of_Z z)], [("payload_int", VDict [("value", VInt z)])]).
Proof.
  assert (A : arrives num (S n) (node "payloadInt" [leaf "value" (str_of_Z z)]) [("value", VInt z)]).
  { apply (arrives_node num n "payloadInt" [(leaf "value" (str_of_Z z), [("value", VInt z)])]); [discriminate| |reflexivity].
    constructor; [now apply step_int|constructor]. }
  apply (step_intro num (S n) _ "payload_int" (VDict [("value", VInt z)]) (VDict [("value", VInt z)])); try reflexivity.
  now apply value_arrives.
Qed.
Lemma int_interval_unreadable n t r_id z : good_time t -> plain r_id ->
  exists its, to_val (int_interval_xml t r_id z) = VDict its /\ normalize num (S (S (S n))) its = Raise KeyError.
Proof.
  intros G P. set (p := node "oadrReportPayload" [leaf "rID" r_id; node "payloadInt" [leaf "value" (str_of_Z z)]]).
  assert (A : arrives num (S (S n)) p [("r_id", VStr r_id); ("payload_int", VDict [("value", VInt z)])]).
  { apply (arrives_node num (S n) "oadrReportPayload" [(leaf "rID" r_id, [("r_id", VStr r_id)]); (node "payloadInt" [leaf "value" (str_of_Z z)], [("payload_int", VDict [("value", VInt z)])])]);
      [discriminate| |reflexivity]. constructor; [now apply step_text|]. constructor; [apply step_payload_int|constructor]. }
  set (d := node "dtstart" [leaf "date-time" (show_time t)]).
  exists [(xml_name d, to_val d); (xml_name p, to_val p)]. split.
  - unfold int_interval_xml. fold d p. rewrite to_val_node by discriminate. cbn [fold_left]. rewrite !push_absent by reflexivity. reflexivity.
  - apply (run_raise (S (S n)) [(xml_name d, to_val d)] [("dtstart", read_time t)] _ []).
    + apply (run num (S (S n)) [((xml_name d, to_val d), [("dtstart", read_time t)])]); [|reflexivity]. constructor; [|constructor].
      exact (proj1 (step_dtstart num (S n) t G)).
    + rewrite (entry_value num (S (S n)) [("dtstart", read_time t)] (xml_name p) (to_val p) (VDict [("r_id", VStr r_id); ("payload_int", VDict [("value", VInt z)])]));
        [|reflexivity|now apply value_arrives]. reflexivity.
Qed.
Lemma int_report_unreadable n request_id report_request_id specifier_id created t r_id z :
  plain request_id -> good_time t -> plain r_id ->
  parse_payload num (S (S (S (S (S (S n)))))) (int_report_xml request_id report_request_id specifier_id created t r_id z) = Raise KeyError.
Proof.
  intros PR GT PI. destruct (int_interval_unreadable n t r_id z GT PI) as (its & E & R).
  unfold parse_payload, int_report_xml. rewrite message_items. cbn [fold_left]. rewrite !push_absent by reflexivity. cbn [app]. rewrite skip_attribute.
  set (rep := node "oadrReport" _).
  apply (run_raise (S (S (S (S (S n))))) [(xml_name (leaf "requestID" request_id), to_val (leaf "requestID" request_id))] [("request_id", VStr request_id)]).
  { apply (run num _ [((xml_name (leaf "requestID" request_id), to_val (leaf "requestID" request_id)), [("request_id", VStr request_id)])]); [|reflexivity].
    constructor; [|constructor]. exact (proj1 (step_text num _ "requestID" "request_id" request_id eq_refl PR)). }
  assert (I : to_val (node "intervals" [int_interval_xml t r_id z]) = VDict [("interval", VDict its)]).
  { rewrite to_val_node by discriminate. cbn [fold_left]. rewrite push_absent by reflexivity. rewrite E. reflexivity. }
  assert (W : exists rest, to_val rep = VDict (("intervals", VDict [("interval", VDict its)]) :: rest)).
  { unfold rep. rewrite to_val_node by discriminate. cbn [fold_left]. rewrite !push_absent by reflexivity. rewrite I. eexists. reflexivity. }
  destruct W as (rest & ->). apply entry_raise; [reflexivity|].
  apply (run_raise (S (S (S (S n)))) [] []); [reflexivity|]. apply entry_raise; [reflexivity|].
  apply (run_raise (S (S (S n))) [] [] _ []); [reflexivity|]. now apply entry_raise.
Qed.
End Arrival.
