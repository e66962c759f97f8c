(** C44-C46: the VTN's report service. *)
From Coq Require Import ZArith String Ascii List Bool Lia.
From Verif.Base Require Import Result Dict PyStr ListExtra.
From Verif.Model Require Import Reports.
From Verif.Spec Require Import ReportSpec.
From Verif.Proofs Require Import ReportProofs.
Import ListNotations.
Local Open Scope string_scope.
Local Open Scope Z_scope.

(** ** C44 *)
Theorem C44_validate : forall l,
  length (validate_report_request_tuples l) = length l /\
  (forall i, nth_error l i = Some None -> nth_error (validate_report_request_tuples l) i = Some None) /\
  (forall i es, nth_error l i = Some (Some es) ->
     exists es', nth_error (validate_report_request_tuples l) i = Some (Some es') /\ length es' = length es /\
       forall j e, nth_error es j = Some e ->
         (well_formed e -> nth_error es' j = Some e) /\ (~ well_formed e -> nth_error es' j = Some ENone)).
Proof.
  intros l. unfold validate_report_request_tuples. split; [apply map_length|]. split.
  - intros i E. now rewrite (map_nth_error _ _ _ E).
  - intros i es E. rewrite (map_nth_error _ _ _ E). eexists. split; [reflexivity|]. split; [apply map_length|].
    intros j e J. rewrite (map_nth_error _ _ _ J). destruct (validate_cases e) as [[W ->]|[W ->]]; tauto.
Qed.

(** Validating twice changes nothing more. *)
Theorem C44_again : forall l, validate_report_request_tuples (validate_report_request_tuples l) = validate_report_request_tuples l.
Proof.
  intros l. unfold validate_report_request_tuples. rewrite map_map. apply map_ext. intros [es|]; [|reflexivity]. simpl. f_equal. rewrite map_map. apply map_ext.
  intros e. destruct (validate_cases e) as [[W ->]|[W ->]]; [now apply validate_wf|reflexivity].
Qed.

Example C44_example :
  validate_report_request_tuples
    [None; Some [ETuple [Plain (SStr "a"); Callback 1; Delta 5]; EOther; ENone;
                 ETuple [Plain (SStr "b"); Callback 1; Delta 5; Plain SNone]; ETuple [Plain (SStr "c"); Delta 3; Callback 2];
                 ETuple [Plain (SStr "d"); Callback 1; Delta 5; Delta 9]; ETuple [Plain (SStr "e"); Callback 1]]]
  = [None; Some [ETuple [Plain (SStr "a"); Callback 1; Delta 5]; ENone; ENone; ENone; ENone; ETuple [Plain (SStr "d"); Callback 1; Delta 5; Delta 9]; ENone]].
Proof. reflexivity. Qed.

(** ** C45 *)

(** One report for which something valid was answered, as the property wants
    it: exactly the valid data points, at the smallest sampling interval. *)
Definition valid_demands (es : list entry) (ds : list demand) : Prop :=
  exists es', Forall2 demands es' ds /\ (forall e, In e es' <-> In e es /\ well_formed e).

Inductive wanted (fresh : nat -> string) : nat -> list offered -> list (list entry) -> list request -> Prop :=
| wa_nil i : wanted fresh i [] [] []
| wa_skip i r rs es ess qs : (forall e, In e es -> ~ well_formed e) -> wanted fresh (S i) rs ess qs -> wanted fresh i (r :: rs) (es :: ess) qs
| wa_take i r rs es ess ds q qs : ds <> [] -> valid_demands es ds -> requests_exactly (fresh i) r ds q ->
    (forall d, In d ds -> rq_granularity q <= m_sampling d) -> (exists d, In d ds /\ rq_granularity q = m_sampling d) ->
    wanted fresh (S i) rs ess qs -> wanted fresh i (r :: rs) (es :: ess) (q :: qs).

(** The data points asked for are offered. *)
Definition offered_points (r : offered) (es : list entry) : Prop :=
  forall e, In e es -> well_formed e -> exists d t, demands e d /\ described (o_descs r) (m_rid d) t.

Definition C45_full : Prop := forall fresh h ven reports ess st, (forall a b, fresh a = fresh b -> a = b) ->
  all_answers h ven 0 reports ess -> (forall r es, In (r, es) (combine reports ess) -> offered_points r es) ->
  exists qs, snd (register_report fresh h ven (Some reports) st) = Ok qs /\ wanted fresh 0 reports ess qs.

Definition number (n : nat) : string := string_of_list_ascii (repeat "x"%char n).
Lemma number_inj a b : number a = number b -> a = b.
Proof.
  intros E. apply (f_equal list_ascii_of_string) in E. unfold number in E. rewrite !list_ascii_of_string_of_list_ascii in E.
  apply (f_equal (@List.length _)) in E. now rewrite !repeat_length in E.
Qed.

Definition usage (l : list desc) : offered := mk_offered "METADATA_TELEMETRY_USAGE" "spec" l.
Definition point (r : string) : desc := mk_desc (SStr r) "Direct Read" SNone None None.

(** One invalid tuple beside a valid one: the VTN fails with TypeError. *)
Theorem C45_invalid_refuted : ~ C45_full.
Proof.
  intros F. set (es := [ENone; ETuple [Plain (SStr "a"); Callback 1; Delta 5]]).
  destruct (F number (Full (fun _ _ => Ok (ReturnsList es))) (SStr "v") [usage [point "a"]] [es] (mk_service [] [] [])) as (qs & Q & _).
  - exact number_inj.
  - constructor; [|constructor]. apply an_full with (status := false); reflexivity.
  - intros r es' [E|[]] e I W. injection E as <- <-. destruct I as [<-|[<-|[]]]; [inversion W|].
    exists (mk_demand (SStr "a") 1 5 5), "Direct Read". split; constructor.
  - vm_compute in Q. discriminate.
Qed.

(** Different sampling intervals: the last one is requested, not the smallest. *)
Theorem C45_granularity_refuted : ~ C45_full.
Proof.
  intros F. set (es := [ETuple [Plain (SStr "a"); Callback 1; Delta 5]; ETuple [Plain (SStr "b"); Callback 1; Delta 9]]).
  destruct (F number (Full (fun _ _ => Ok (ReturnsList es))) (SStr "v") [usage [point "a"; point "b"]] [es] (mk_service [] [] [])) as (qs & Q & W).
  - exact number_inj.
  - constructor; [|constructor]. apply an_full with (status := false); reflexivity.
  - intros r es' [E|[]] e I W. injection E as <- <-. destruct I as [<-|[<-|[]]].
    + exists (mk_demand (SStr "a") 1 5 5), "Direct Read". split; constructor.
    + exists (mk_demand (SStr "b") 1 9 9), "Direct Read". split; [constructor|]. constructor; [discriminate|constructor].
  - vm_compute in Q. injection Q as <-. inversion W as [|? ? ? ? ? ? NW W'|? ? ? ? ? ds ? ? NE VD RE MI _ _]; subst.
    + apply (NW (ETuple [Plain (SStr "a"); Callback 1; Delta 5])); [now left|constructor].
    + destruct VD as (es' & D & EQ). assert (I : In (ETuple [Plain (SStr "a"); Callback 1; Delta 5]) es') by (apply EQ; split; [now left|constructor]).
      assert (J : In (mk_demand (SStr "a") 1 5 5) ds).
      { clear - D I. induction D as [|e d es ds D1 D IH]; [contradiction|]. destruct I as [->|I]; [left; inversion D1; reflexivity|right; auto]. }
      specialize (MI _ J). simpl in MI. lia.
Qed.

(** What holds: when for each report nothing valid or only valid tuples for
    offered data points came back, there is one request per report of the
    second kind, in order, with exactly those data points, and their callbacks
    are registered; all other callbacks stay. *)
Theorem C45_requests_partial : forall fresh h ven reports ess dss st, (forall a b, fresh a = fresh b -> a = b) ->
  all_answers h ven 0 reports ess -> length ess = length dss -> Forall2 (fun r p => clear r (fst p) (snd p)) reports (combine ess dss) ->
  exists qs, snd (register_report fresh h ven (Some reports) st) = Ok qs /\ expected fresh 0 reports dss qs /\
    let st' := fst (register_report fresh h ven (Some reports) st) in
    get scalar_eqb ven (requested st') = Some qs /\
    (forall v, v <> ven -> get scalar_eqb v (requested st') = get scalar_eqb v (requested st)) /\
    (forall key k ds c, nth_error dss k = Some ds -> registers (fresh k) ds key c -> get key_eqb key (report_callbacks st') = Some c) /\
    (forall key, (forall k ds c, nth_error dss k = Some ds -> ~ registers (fresh k) ds key c) ->
       get key_eqb key (report_callbacks st') = get key_eqb key (report_callbacks st)).
Proof.
  intros fresh h ven reports ess dss st INJ A L C. unfold register_report.
  destruct (collect_answers h ven reports ess 0 (match get scalar_eqb ven (registered st) with Some l => l | None => [] end) A) as (xs & E & V).
  destruct (collect h ven 0 reports _) as [reg y]. simpl in E. subst y.
  destruct (form_ok fresh reports 0 xs ess dss (report_callbacks st) V C L) as (qs & Q & X). rewrite Q. simpl. exists qs. split; [reflexivity|]. split; [exact X|].
  split; [apply get_set_same; exact scalar_eqb_eq|]. split; [intros v N; apply get_set_other; [exact scalar_eqb_eq|assumption]|]. split.
  - intros key k ds c E R. now apply (store_all_registers fresh INJ dss 0 _ key k ds c).
  - intros key N. now apply store_all_other.
Qed.

(** With equal sampling intervals the request carries that one. *)
Theorem C45_granularity_partial : forall fresh i reports dss qs, expected fresh i reports dss qs ->
  forall q, In q qs -> exists ds, In ds dss /\ ds <> [] /\ (exists d, In d ds /\ rq_granularity q = m_sampling d /\ rq_back q = m_back d) /\
    forall s, (forall d, In d ds -> m_sampling d = s) -> rq_granularity q = s.
Proof.
  intros fresh i reports dss qs X. induction X as [|i r rs dss qs X IH|i r rs ds dss q0 qs NE RE (l & d & E & G & B) X IH]; intros q I.
  - contradiction.
  - destruct (IH q I) as (ds & J & H). exists ds. split; [now right|assumption].
  - destruct I as [<-|I].
    + assert (J : In d ds) by (rewrite E; apply in_app_iff; right; now left).
      exists ds. split; [now left|]. split; [assumption|]. split; [exists d; auto|]. intros s H. rewrite G. auto.
    + destruct (IH q I) as (ds' & J & H). exists ds'. split; [now right|assumption].
Qed.

(** And otherwise it is TypeError, every time: the requests stay as they were. *)
Theorem C45_type_error : forall fresh h ven reports ess st, all_answers h ven 0 reports ess ->
  (exists r es, In (r, es) (combine reports ess) /\ forall ds, ~ clear r es ds) ->
  snd (register_report fresh h ven (Some reports) st) = Raise TypeError /\
  requested (fst (register_report fresh h ven (Some reports) st)) = requested st.
Proof.
  intros fresh h ven reports ess st A N. unfold register_report.
  destruct (collect_answers h ven reports ess 0 (match get scalar_eqb ven (registered st) with Some l => l | None => [] end) A) as (xs & E & V).
  destruct (collect h ven 0 reports _) as [reg y]. simpl in E. subst y.
  assert (L : length ess = length reports) by (clear - A; induction A; simpl; congruence).
  destruct (form_raise fresh reports 0 xs ess (report_callbacks st) V L N) as (cbs & Q). rewrite Q. split; reflexivity.
Qed.

Lemma dropped n : forall s, (exists a, String.length a = n /\ s = (a ++ Preflight.drop n s)%string) \/ (String.length s < n)%nat /\ Preflight.drop n s = "".
Proof.
  induction n as [|n IH]; intros s; [left; exists ""; split; [reflexivity|]; now destruct s|]. destruct s as [|c s]; [right; cbn; split; [lia | reflexivity]|]. cbn [Preflight.drop String.length].
  destruct (IH s) as [(a & L & E)|[L E]]; [left; exists (String c a); cbn [String.length String.append]; split; [now rewrite L | now rewrite <- E] | right; split; [lia | exact E]].
Qed.
Lemma renamed_remembered r : remembered r (renamed r).
Proof. split; [reflexivity|]. split; [reflexivity|]. exact (dropped 9 (o_name r)). Qed.
(** Whenever the VTN answers, the handler answered for every report, and what
    was offered is recorded under the name without its first nine characters. *)
Theorem C45_answered : forall fresh h ven reports st qs, snd (register_report fresh h ven (Some reports) st) = Ok qs ->
  (exists ess, all_answers h ven 0 reports ess) /\
  (reports <> [] -> exists rs, Forall2 remembered reports rs /\ get scalar_eqb ven (registered (fst (register_report fresh h ven (Some reports) st))) =
     Some ((match get scalar_eqb ven (registered st) with Some l => l | None => [] end) ++ rs)%list).
Proof.
  intros fresh h ven reports st qs. unfold register_report.
  destruct (collect_reg h ven reports 0 (match get scalar_eqb ven (registered st) with Some l => l | None => [] end)) as (k & _ & R).
  pose proof (collect_ok h ven reports 0 (match get scalar_eqb ven (registered st) with Some l => l | None => [] end)) as K.
  destruct (collect h ven 0 reports _) as [reg y]. simpl in R, K. destruct y as [xs|e]; [|discriminate].
  destruct (K xs eq_refl) as (ess & A & V). rewrite (R xs eq_refl).
  destruct (form fresh 0 reports (validate_report_request_tuples xs) (report_callbacks st)) as [cbs [qs'|e]]; [|discriminate]. intros H. simpl. split; [eauto|].
  intros NE. exists (map renamed reports). split; [clear; induction reports as [|r rs IH]; constructor; [apply renamed_remembered | exact IH]|]. destruct reports; [congruence|]. apply get_set_same. exact scalar_eqb_eq.
Qed.

Example C45_example :
  let h := Compact (fun i j a => if (a_measurement a =? "Voltage")%string then Ok (ETuple [Callback 7; Delta (a_min a)]) else Ok ENone) in
  let d r m := mk_desc (SStr r) "Direct Read" (SStr "res") (Some (m, "V", "none")) (Some (10, 60)) in
  register_report number h (SStr "v") (Some [mk_offered "METADATA_HISTORY_USAGE" "s0" []; usage [d "a" "Current"; d "b" "Voltage"; d "c" "Voltage"]]) (mk_service [] [] [])
  = (mk_service [(SStr "v", [mk_offered "HISTORY_USAGE" "s0" []; mk_offered "TELEMETRY_USAGE" "spec" [d "a" "Current"; d "b" "Voltage"; d "c" "Voltage"]])]
                [(SStr "v", [mk_request "x" "spec" 10 10 [(SStr "b", "Direct Read"); (SStr "c", "Direct Read")]])]
                [(("x", SStr "b"), 7%nat); (("x", SStr "c"), 7%nat)],
     Ok [mk_request "x" "spec" 10 10 [(SStr "b", "Direct Read"); (SStr "c", "Direct Read")]]).
Proof. vm_compute. reflexivity. Qed.

(** ** C46 *)
Theorem C46_routing : forall user cbs reports, NoDup (map fst cbs) -> cbs <> [] -> (forall d, user d = Ok tt) ->
  exists dss, update_report user cbs reports = (concat dss, Ok tt) /\ Forall2 (delivers cbs) reports dss.
Proof.
  intros user cbs reports ND NE U. exists (map (deliveries cbs) reports). unfold update_report. rewrite flat_map_concat_map. split.
  - apply deliver_all_ok. auto.
  - clear U. induction reports as [|r rs IH]; simpl; constructor; [now apply deliveries_spec|assumption].
Qed.

(** User code that raises ends the message: everything before it was
    delivered, nothing after it. *)
Theorem C46_failing_callback : forall user cbs reports, NoDup (map fst cbs) -> cbs <> [] ->
  exists dss rest, Forall2 (delivers cbs) reports dss /\ concat dss = (fst (update_report user cbs reports) ++ rest)%list /\
    match snd (update_report user cbs reports) with
    | Ok _ => rest = []
    | Raise e => exists l d, fst (update_report user cbs reports) = (l ++ [d])%list /\ user d = Raise e /\ forall x, In x l -> exists u, user x = Ok u
    end.
Proof.
  intros user cbs reports ND NE. exists (map (deliveries cbs) reports). unfold update_report. rewrite flat_map_concat_map.
  destruct (deliver_all_prefix user (concat (map (deliveries cbs) reports))) as (rest & E & H). exists rest. split.
  - clear - ND NE. induction reports as [|r rs IH]; simpl; constructor; [now apply deliveries_spec|assumption].
  - split; [exact E|]. destruct (snd _); [tauto|exact H].
Qed.

(** Before any report was requested, the whole report goes to on_update_report. *)
Theorem C46_unclaimed : forall user reports, (forall d, user d = Ok tt) -> update_report user [] reports = (map Unclaimed reports, Ok tt).
Proof.
  intros user reports U. unfold update_report. assert (E : flat_map (deliveries []) reports = map Unclaimed reports).
  { induction reports as [|r rs IH]; simpl; congruence. }
  rewrite E. now apply deliver_all_ok.
Qed.

(** For a given data point: the delivered pairs are those received, in order. *)
Theorem C46_values : forall cbs report ds r c, delivers cbs report ds -> NoDup (map fst cbs) ->
  In ((rc_request report, r), c) cbs -> In r (map ri_rid (rc_intervals report)) ->
  In (Deliver c (pairs_of r (rc_intervals report))) ds /\ pairs_of r (rc_intervals report) <> [].
Proof.
  intros cbs report ds r c (rids & N & I & F) ND J K. split.
  - assert (R : In r rids) by (apply I; eauto). clear N I. induction F as [|r' d rids ds (c' & J' & ->) F IH]; [contradiction|].
    destruct R as [->|R]; [|right; auto]. left. f_equal. pose proof (in_get_nodup key_eqb key_eqb_eq _ _ _ ND J). pose proof (in_get_nodup key_eqb key_eqb_eq _ _ _ ND J'). congruence.
  - unfold pairs_of. intros E. apply map_eq_nil in E. apply in_map_iff in K as (ri & <- & K).
    assert (X : In ri (filter (fun x => if scalar_eq_dec (ri_rid x) (ri_rid ri) then true else false) (rc_intervals report))).
    { apply filter_In. split; [assumption|]. now destruct (scalar_eq_dec (ri_rid ri) (ri_rid ri)). }
    rewrite E in X. contradiction.
Qed.

Example C46_example :
  let i r t v := mk_rinterval (SStr r) t (SInt v) in
  update_report (fun _ => Ok tt) [(("q1", SStr "a"), 1%nat); (("q1", SStr "b"), 2%nat); (("q2", SStr "a"), 3%nat)]
    [mk_received "q1" [i "b" 1 10; i "a" 1 11; i "z" 1 12; i "b" 2 13]; mk_received "q3" [i "a" 1 1]]
  = ([Deliver 2 [(1, SInt 10); (2, SInt 13)]; Deliver 1 [(1, SInt 11)]], Ok tt).
Proof. vm_compute. reflexivity. Qed.

Print Assumptions C44_validate.
Print Assumptions C44_again.
Print Assumptions C45_invalid_refuted.
Print Assumptions C45_granularity_refuted.
Print Assumptions C45_requests_partial.
Print Assumptions C45_granularity_partial.
Print Assumptions C45_type_error.
Print Assumptions C45_answered.
Print Assumptions C46_routing.
Print Assumptions C46_failing_callback.
Print Assumptions C46_unclaimed.
Print Assumptions C46_values.
