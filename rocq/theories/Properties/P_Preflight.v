(** C38, C39, C42: preparing oadrDistributeEvent and oadrRegisterReport. *)
From Coq Require Import ZArith String List Bool Lia.
From Verif.Base Require Import Result Dict PyStr ListExtra.
From Verif.Model Require Import Objects Members Duration Measurements Preflight.
From Verif.Spec Require Import PathSpec PreflightSpec MeasurementSpec.
From Verif.Proofs Require Import MeasurementProofs PreflightProofs.
Import ListNotations.
Local Open Scope string_scope.
Local Open Scope Z_scope.

Definition ex_interval (d : dur_arg) (v : scalar) : interval_d := mk_pi (Aware 0) d v None.
Definition ex_signal (name : string) (l : list interval_d) (current : option scalar) (m : option mdict) : signal_d :=
  mk_ps l name "level" (SStr "sig") current m None.
Definition ex_event (status : string) (d : dur_arg) (l : list signal_d) (ts : option (list target)) (tbt : option (dict string tval)) (r : option string) : event_d :=
  mk_pe [("event_id", SStr "e1")] status None (Aware 0) d l ts tbt r.
Definition hour : Z := 3600 * 1000000.

(** ** C38 *)

(** Preflight gives exactly the corrected events, and succeeds exactly when all
    events are acceptable. *)
Theorem C38_exact : forall now l l', (forall e, In e l -> one_entry_each e) ->
  (preflight_distribute now l = Ok l' <->
   length l' = length l /\
   forall j e e', nth_error l j = Some e -> nth_error l' j = Some e' -> acceptable e /\ prepared (now j) e e').
Proof. exact preflight_iff. Qed.

(** What is sent obeys the rules. *)
Theorem C38_conforms : forall now l l' e', (forall e, In e l -> one_entry_each e) ->
  preflight_distribute now l = Ok l' -> In e' l' -> rules e' /\ namespaced e'.
Proof.
  intros now l l' e' W H I. apply preflight_iff in H as [L H]; [|assumption]. apply In_nth_error in I as (j & E).
  destruct (nth_error l j) as [e|] eqn:N.
  - destruct (H j e e' N E) as [A P]. apply (prepared_rules (now j) e e'); [|assumption..]. apply W. eapply nth_error_In; eassumption.
  - apply nth_error_None in N. assert (j < length l')%nat by (apply nth_error_Some; congruence). lia.
Qed.

(** The corrections can be made whenever an event is acceptable. *)
Lemma prepared_exists now e : acceptable e -> exists e', prepared now e e'.
Proof.
  intros [A1 A2 A3 A4 A5].
  assert (D : exists d, duration_ok e d).
  { destruct (pe_signals e) as [|s r] eqn:Es.
    - exists (pe_duration e). split; [reflexivity|]. rewrite Es. contradiction.
    - destruct (A1 s (or_introl eq_refl)) as (t & L). exists (DTd t). split; rewrite Es; [discriminate|].
      intros s' t' I L'. f_equal. apply (A2 s s'); auto. now left. }
  destruct D as (d & D1 & D2).
  assert (S : exists l, Forall2 (prepared_signal (pe_status e)) (pe_signals e) l).
  { unfold named in A4. clear - A4. induction (pe_signals e) as [|s r IH]; [exists []; constructor|].
    destruct IH as (l & F); [intros; eapply A4; [right; eassumption|assumption]|].
    assert (S : exists s', signal_namespace (fix_current (pe_status e) s) = Ok s').
    { destruct (fix_current_prepared (pe_status e) s) as (_ & _ & _ & _ & _ & M & _). unfold signal_namespace. rewrite M.
      destruct (ps_measurement s) as [m|] eqn:Em; [|eauto].
      destruct (proj2 (add_namespace_known m)) as (m' & ->); [apply (A4 s m); [now left|assumption]|]. cbn [bind]. eauto. }
    destruct S as (s' & S). apply signal_steps in S. exists (s' :: l). now constructor. }
  destruct S as (l & F).
  destruct (fix_response_spec e) as (r & _ & R1 & R2). destruct (fix_created_spec now e) as (c & _ & C1 & C2).
  exists (mk_pe (pe_descriptor e) (pe_status e) c (pe_start e) d l
           (match pe_targets e, pe_tbt e with None, Some tbt => Some (ungroup_targets_by_type tbt) | x, _ => x end) (pe_tbt e) r).
  constructor; simpl; try reflexivity; try assumption.
  - intros ts ->. reflexivity.
  - intros -> ->. reflexivity.
  - intros tbt -> ->. eexists. split; [reflexivity|]. now apply ungroup_spread.
Qed.

Theorem C38_accepts : forall now l, (forall e, In e l -> one_entry_each e) ->
  ((exists l', preflight_distribute now l = Ok l') <-> forall e, In e l -> acceptable e).
Proof.
  intros now l W. split.
  - intros (l' & H) e I. apply preflight_iff in H as [L H]; [|assumption]. apply In_nth_error in I as (j & E).
    destruct (nth_error l' j) as [e'|] eqn:N; [now apply (H j e e' E N)|].
    apply nth_error_None in N. assert (j < length l)%nat by (apply nth_error_Some; congruence). lia.
  - intros A.
    assert (G : forall i, exists l', length l' = length l /\ forall j e e', nth_error l j = Some e -> nth_error l' j = Some e' -> prepared (now (i + j)%nat) e e').
    { clear W. induction l as [|e l IH]; intros i.
      - exists []. split; [reflexivity|]. intros [|j] e e' H; discriminate.
      - destruct (IH (fun e I => A e (or_intror I)) (S i)) as (l' & L & P). destruct (prepared_exists (now i) e (A e (or_introl eq_refl))) as (e' & Q).
        exists (e' :: l'). split; [simpl; congruence|]. intros [|j] a a' H1 H2; simpl in *.
        + injection H1 as <-. injection H2 as <-. now rewrite Nat.add_0_r.
        + rewrite Nat.add_succ_r. exact (P j a a' H1 H2). }
    destruct (G 0%nat) as (l' & L & P). exists l'. apply preflight_iff; [assumption|]. split; [assumption|].
    intros j e e' H1 H2. split; [apply A; eapply nth_error_In; eassumption|exact (P j e e' H1 H2)].
Qed.

(** "otherwise a ValueError": not for a measurement without a name (KeyError)
    or a duration that is neither text nor timedelta (TypeError). *)
Definition C38_full : Prop := forall now l, (forall e, In e l -> one_entry_each e) ->
  (exists l', preflight_distribute now l = Ok l' /\ forall e, In e l' -> rules e) \/ preflight_distribute now l = Raise ValueError.

Theorem C38_value_error_refuted : ~ C38_full.
Proof.
  intros F.
  set (m := mk_md None (Some "RealPower") (Some "W") None NoPower None None).
  destruct (F (fun _ => 0) [ex_event "far" (DTd hour) [ex_signal "LOAD_DISPATCH" [ex_interval (DTd hour) (SInt 5)] None (Some m)] None None None]) as [(l' & H & _)|H].
  - intros e [<-|[]] tbt H. discriminate.
  - vm_compute in H. discriminate.
  - vm_compute in H. discriminate.
Qed.

(** All other refusals are ValueErrors. *)
Theorem C38_refusal_partial : forall now l, (forall e, In e l -> one_entry_each e) -> (forall e, In e l -> well_typed e) ->
  (exists l', preflight_distribute now l = Ok l' /\ forall e, In e l' -> rules e) \/
  (preflight_distribute now l = Raise ValueError /\ exists e, In e l /\ ~ acceptable e).
Proof.
  intros now l W T. destruct (preflight_distribute now l) as [l'|x] eqn:H.
  - left. exists l'. split; [reflexivity|]. intros e I. now apply (C38_conforms now l l' e W H I).
  - right. split; [f_equal; eapply preflight_raise; eauto|].
    rewrite prep_from_0 in H.
    assert (G : forall i x, prep_from now i l = Raise x -> exists j e y, In e l /\ prep_one (now j) e = Raise y).
    { clear. intros i x. revert i x. induction l as [|e l IH]; intros i x H; [discriminate|].
      destruct (prep_one (now i) e) as [e'|y] eqn:P; [|exists i, e, y; split; [now left|assumption]].
      destruct (prep_from now (S i) l) as [l'|y] eqn:Q.
      - assert (prep_from now i (e :: l) = Ok (e' :: l')) by (apply prep_from_cons; eauto). congruence.
      - destruct (IH _ _ Q) as (j & a & z & I & K). exists j, a, z. split; [now right|assumption]. }
    destruct (G _ _ H) as (j & e & y & I & P). exists e. split; [assumption|]. intros A.
    destruct (prepared_exists (now j) e A) as (e' & Q). assert (prep_one (now j) e = Ok e') by (apply prep_one_ok; auto). congruence.
Qed.

Example C38_example :
  preflight_distribute (fun _ => 77)
    [ex_event "far" (DText "PT3H") [ex_signal "SIMPLE" [ex_interval (DText "PT1H") (SInt 1); ex_interval (DTd hour) (SDec 20 1)] (Some (SInt 1)) None] None
       (Some [("ven_id", TList [SStr "v1"; SStr "v2"])]) (Some "perhaps")]
  = Ok [mk_pe [("event_id", SStr "e1")] "far" (Some 77) (Aware 0) (DTd (2 * hour))
          [ex_signal "SIMPLE" [ex_interval (DText "PT1H") (SInt 1); ex_interval (DTd hour) (SDec 20 1)] (Some (SInt 0)) None]
          (Some [[("ven_id", SStr "v1")]; [("ven_id", SStr "v2")]]) (Some [("ven_id", TList [SStr "v1"; SStr "v2"])]) (Some "always")].
Proof. vm_compute. reflexivity. Qed.

Example C38_example_refused :
  preflight_distribute (fun _ => 77)
    [ex_event "far" (DTd hour) [ex_signal "SIMPLE" [ex_interval (DTd hour) (SInt 1)] None None; ex_signal "LOAD_DISPATCH" [ex_interval (DTd 5) (SInt 1)] None None] None None None]
  = Raise ValueError.
Proof. vm_compute. reflexivity. Qed.

(** ** C39 *)
Definition C39_full : Prop :=
  (forall now l, (forall e, In e l -> one_entry_each e /\ rules e /\ named e) ->
     exists l', preflight_distribute now l = Ok l' /\ map plain l' = map plain l) /\
  (forall now now' l l', (forall e, In e l -> one_entry_each e) ->
     preflight_distribute now l = Ok l' -> preflight_distribute now' l' = Ok l').

Definition active_simple : event_d :=
  mk_pe [("event_id", SStr "e1")] "active" (Some 0) (Aware 0) (DTd hour)
    [ex_signal "SIMPLE" [ex_interval (DTd hour) (SInt 2)] (Some (SInt 2)) None] None None (Some "always").

(** The status is called active, but the code looks for ACTIVE: the current
    value of an active SIMPLE event is sent as 0. *)
Theorem C39_current_value_refuted : ~ C39_full.
Proof.
  intros [F _]. destruct (F (fun _ => 0) [active_simple]) as (l' & H & E).
  - intros e [<-|[]]. split; [intros tbt H; discriminate|]. split.
    + constructor.
      * intros s [<-|[]]. exists (hour + 0). split; [|reflexivity]. repeat constructor.
      * intros s i [<-|[]] _ [<-|[]]. right; right; left. reflexivity.
      * intros s v _ _ _ H. now elim H.
      * now left.
      * discriminate.
      * exact I.
    + intros s m [<-|[]] H. discriminate.
  - vm_compute in H. injection H as <-. vm_compute in E. discriminate.
Qed.

(** An event with a single text in targets_by_type passes the first check, which
    adds its targets, and is then refused by the second. *)
Definition text_target : event_d := ex_event "far" (DTd hour) [ex_signal "x-load" [ex_interval (DTd hour) (SInt 2)] None None] None (Some [("ven_id", TStr "v1")]) None.

Theorem C39_second_time_refuted : exists l', preflight_distribute (fun _ => 0) [text_target] = Ok l' /\
  preflight_distribute (fun _ => 0) l' = Raise ValueError.
Proof.
  exists (match preflight_distribute (fun _ => 0) [text_target] with Ok l => l | Raise _ => [] end).
  split; vm_compute; reflexivity.
Qed.

(** Without these two the claim holds. *)
Theorem C39_preserves_partial : forall now l,
  (forall e, In e l -> one_entry_each e /\ rules e /\ named e /\ zero_unless_ACTIVE e /\
     (forall ts tbt, pe_targets e = Some ts -> pe_tbt e = Some tbt -> canonical tbt)) ->
  exists l', preflight_distribute now l = Ok l' /\ map plain l' = map plain l.
Proof.
  intros now l H.
  assert (W : forall e, In e l -> one_entry_each e) by (intros e I; now apply H).
  destruct (proj2 (C38_accepts now l W)) as (l' & E).
  { intros e I. destruct (H e I) as (_ & R & N & _ & C). now apply acceptable_rules. }
  exists l'. split; [assumption|]. apply preflight_iff in E as [L P]; [|assumption].
  apply nth_error_ext. intros j. rewrite !nth_error_map.
  destruct (nth_error l j) as [e|] eqn:N.
  - destruct (nth_error l' j) as [e'|] eqn:N'.
    + simpl. f_equal. destruct (P j e e' N N') as [A Q]. destruct (H e (nth_error_In _ _ N)) as (_ & R & _ & Z & _). eapply prepared_plain; eassumption.
    + apply nth_error_None in N'. assert (j < length l)%nat by (apply nth_error_Some; congruence). lia.
  - apply nth_error_None in N. assert (N' : nth_error l' j = None) by (apply nth_error_None; lia). now rewrite N'.
Qed.

Theorem C39_idempotent_partial : forall now now' l l', (forall e, In e l -> one_entry_each e) ->
  (forall e tbt, In e l -> pe_targets e = None -> pe_tbt e = Some tbt -> canonical tbt) ->
  preflight_distribute now l = Ok l' -> preflight_distribute now' l' = Ok l'.
Proof. exact preflight_again. Qed.

Definition C39_input : list event_d :=
  [ex_event "near" (DTd 7) [ex_signal "SIMPLE" [ex_interval (DTd hour) (SInt 2)] (Some (SInt 2)) (Some (mk_md (Some "voltage") None None None NoPower None None))]
     None (Some [("ven_id", TList [SStr "v1"])]) None].
Example C39_example : exists l', preflight_distribute (fun _ => 5) C39_input = Ok l' /\ preflight_distribute (fun _ => 9) l' = Ok l'.
Proof.
  exists (match preflight_distribute (fun _ => 5) C39_input with Ok l => l | Raise _ => [] end).
  split; vm_compute; reflexivity.
Qed.

(** ** C42 *)
Definition base_names : list string := ["HISTORY_GREENBUTTON"; "HISTORY_USAGE"; "TELEMETRY_STATUS"; "TELEMETRY_USAGE"].

(** [renamed n n']: how a report named [n] is registered. *)
Definition renamed (n n' : string) : Prop :=
  (In n base_names -> n' = "METADATA_" ++ n) /\ (~ In n base_names -> n' = n).

Lemma fix_report_name_spec n : renamed n (fix_report_name n).
Proof.
  unfold fix_report_name, renamed. destruct (inb n REPORT_NAME_values) eqn:B; simpl.
  - apply inb_iff in B. simpl in B. destruct B as [<-|[<-|[<-|[<-|[<-|[<-|[<-|[<-|[]]]]]]]]]; vm_compute; (split; [intuition discriminate|intros H]); try reflexivity; exfalso; apply H; tauto.
  - split; [|reflexivity]. intros I. exfalso. apply not_true_iff_false in B. apply B. apply inb_iff. simpl in *. tauto.
Qed.

Theorem C42_metadata : forall reports reports', preflight_register reports = Ok reports' ->
  Forall2 (fun r r' => renamed (rd_name r) (rd_name r') /\ rd_specifier r' = rd_specifier r /\
                       map fst (rd_descriptions r') = map fst (rd_descriptions r)) reports reports'.
Proof.
  intros reports reports' H. unfold preflight_register in H. apply mapM_ok in H. eapply Forall2_impl; [|eassumption].
  intros r r' E. simpl in E.
  assert (WM : forall f l l', mapM (with_measurement f) l = Ok l' -> map fst l' = map fst l).
  { intros f l l' M. apply mapM_ok in M. induction M as [|d d' l l' D M IH]; [reflexivity|]. cbn [map]. f_equal; [|assumption].
    unfold with_measurement in D. destruct (snd d) as [m|]; [|congruence]. destruct (f m); cbn [bind] in D; [injection D as <-; reflexivity|discriminate]. }
  destruct (mapM (with_measurement validate_report_measurement_dict) _) as [d1|] eqn:E1; cbn [bind] in E; [|discriminate].
  destruct (mapM (with_measurement add_namespace) d1) as [d2|] eqn:E2; cbn [bind] in E; [|discriminate].
  injection E as <-. split; [apply fix_report_name_spec|]. split; [reflexivity|]. cbn. rewrite (WM _ _ _ E2). exact (WM _ _ _ E1).
Qed.

(** Registered any number of times: the dicts that were sent are sent again. *)
Inductive registrations : nat -> list report_d -> list report_d -> Prop :=
| reg_none l : registrations 0 l l
| reg_more n l1 l2 l3 : registrations n l1 l2 -> preflight_register l2 = Ok l3 -> registrations (S n) l1 l3.

Theorem C42_exactly_once : forall n l l', registrations (S n) l l' -> Forall2 (fun r r' => renamed (rd_name r) (rd_name r')) l l'.
Proof.
  assert (Base : forall n n', renamed n n' -> ~ In n' base_names).
  { intros n n' [A B]. destruct (in_dec string_dec n base_names) as [I|I].
    - rewrite (A I). simpl. intuition discriminate.
    - rewrite (B I). exact I. }
  intros n. induction n as [|n IH]; intros l l' R; inversion R as [|? l1 l2 l3 R1 P]; subst.
  - inversion R1; subst. apply C42_metadata in P. eapply Forall2_impl; [|eassumption]. now intros ? ? [? _].
  - apply IH in R1. apply C42_metadata in P. clear - Base R1 P. revert l' P. induction R1 as [|r r1 l l1 H F IH]; intros l' P; inversion P as [|? r2 ? l2 [H2 _] F2]; subst; constructor; [|auto].
    rewrite (proj2 H2 (Base _ _ H)). exact H.
Qed.

(** The VTN keeps the report under the name that the VEN gave it. *)
Theorem C42_recovered : forall n n', In n base_names -> renamed n n' -> registered_name n' = n.
Proof. intros n n' I [A _]. rewrite (A I). reflexivity. Qed.

(** Registration with the same reports succeeds again. *)
Theorem C42_again : forall l l', preflight_register l = Ok l' ->
  exists l'', preflight_register l' = Ok l'' /\ map rd_name l'' = map rd_name l'.
Proof.
  intros l l' H.
  assert (V : forall m m1 m2, validate_report_measurement_dict m = Ok m1 -> add_namespace m1 = Ok m2 ->
              exists m3 m4, validate_report_measurement_dict m2 = Ok m3 /\ add_namespace m3 = Ok m4).
  { intros m m1 m2 A B. apply validate_ok in A as [(name & d & u & N & D & U & K & P) C]. apply add_namespace_ok in B as [F1 F2 F3 F4 F5 F6 (nm & ns & [Kn Ki] & S)].
    assert (Hv : exists req, (md_name m2 = Some req) /\ valid m2).
    { destruct (get String.eqb name measurement_descriptions) as [req|] eqn:G.
      - apply descriptions_get in G. destruct (c_known _ _ C name req N G) as [C1 C2]. exists name. split; [congruence|].
        exists name, req, u. split; [congruence|]. split; [congruence|]. split; [rewrite F3, (c_unit _ _ C); assumption|]. split.
        + intros r Hr. destruct (K r Hr) as [_ K2]. split; [|exact K2]. apply descriptions_get in Hr. apply descriptions_get in G. assert (r = req) by congruence. now subst.
        + intros W. destruct (P W) as (dd & E & R). exists dd. split; [rewrite F5, (c_power _ _ C); assumption|exact R].
      - assert (NI : ~ exists r, In (name, r) measurement_descriptions) by (intros (r & I); apply descriptions_get in I; congruence).
        destruct (c_custom _ _ C name N NI) as [C1 C2]. exists "customUnit". split; [congruence|].
        exists "customUnit", d, u. split; [congruence|]. split; [congruence|]. split; [rewrite F3, (c_unit _ _ C); assumption|]. split.
        + intros r Hr. simpl in Hr. intuition discriminate.
        + intros W. apply contains_spec in W. vm_compute in W. discriminate. }
    destruct Hv as (req & N2 & V2).
    destruct (validate_report_measurement_dict m2) as [m3|x] eqn:E3.
    - exists m3. pose proof E3 as E3'. apply validate_ok in E3' as [_ C3].
      assert (md_name m3 = Some nm).
      { assert (N2' : md_name m2 = Some nm) by congruence.
        destruct (get String.eqb nm measurement_descriptions) as [r|] eqn:G.
        - apply descriptions_get in G. now apply (c_known _ _ C3 nm r).
        - assert (NI : ~ exists r, In (nm, r) measurement_descriptions) by (intros (r & I); apply descriptions_get in I; congruence).
          destruct (c_custom _ _ C3 nm N2' NI) as [C1 _].
          destruct (get String.eqb name measurement_descriptions) as [r0|] eqn:G0.
          + apply descriptions_get in G0. destruct (c_known _ _ C name r0 N G0) as [Q _]. exfalso. apply NI. exists r0. congruence.
          + assert (NI0 : ~ exists r, In (name, r) measurement_descriptions) by (intros (r & I); apply descriptions_get in I; congruence).
            destruct (c_custom _ _ C name N NI0) as [Q _]. congruence. }
      destruct (proj2 (add_namespace_known m3)) as (m4 & E4); [exists nm, ns; split; assumption|]. exists m4. auto.
    - exfalso. assert (E : exists m', corrected m2 m').
      { destruct (get String.eqb req measurement_descriptions) as [r|] eqn:G.
        - exists (set_md_description (Some r) m2). constructor; try reflexivity.
          + intros n r' Hn Hr. apply descriptions_get in Hr. assert (n = req) by congruence. subst n. rewrite G in Hr. injection Hr as <-. split; [exact Hn|reflexivity].
          + intros n Hn Hr. exfalso. apply Hr. exists r. apply descriptions_get. congruence.
        - exists (set_md_name (Some "customUnit") m2). constructor; try reflexivity.
          + intros n r Hn Hr. apply descriptions_get in Hr. congruence.
          + intros n Hn Hr. split; reflexivity. }
      destruct E as (m' & C'). assert (validate_report_measurement_dict m2 = Ok m') by (apply validate_ok; auto). congruence. }
  unfold preflight_register in *. apply mapM_ok in H.
  assert (D : forall (ds d1 d2 : list (scalar * option mdict)),
     mapM (with_measurement validate_report_measurement_dict) ds = Ok d1 -> mapM (with_measurement add_namespace) d1 = Ok d2 ->
     exists d3 d4, mapM (with_measurement validate_report_measurement_dict) d2 = Ok d3 /\ mapM (with_measurement add_namespace) d3 = Ok d4).
  { intros ds. induction ds as [|[s o] ds IH]; intros d1 d2 H1 H2.
    - simpl in H1. injection H1 as <-. simpl in H2. injection H2 as <-. exists [], []. auto.
    - cbn [mapM] in H1. destruct o as [m|]; unfold with_measurement at 1 in H1; cbn [snd fst bind] in H1.
      + destruct (validate_report_measurement_dict m) as [m1|] eqn:E1; cbn [bind] in H1; [|discriminate].
        destruct (mapM _ ds) as [r1|] eqn:M1; cbn [bind] in H1; [|discriminate]. injection H1 as <-.
        cbn [mapM] in H2. unfold with_measurement at 1 in H2; cbn [snd fst bind] in H2.
        destruct (add_namespace m1) as [m2|] eqn:E2; cbn [bind] in H2; [|discriminate].
        destruct (mapM _ r1) as [r2|] eqn:M2; cbn [bind] in H2; [|discriminate]. injection H2 as <-.
        destruct (V m m1 m2 E1 E2) as (m3 & m4 & E3 & E4). destruct (IH r1 r2 eq_refl M2) as (r3 & r4 & M3 & M4).
        exists ((s, Some m3) :: r3), ((s, Some m4) :: r4). cbn [mapM]. unfold with_measurement at 1 3. cbn [snd fst]. rewrite E3. cbn [bind]. rewrite M3.
        split; [reflexivity|]. rewrite E4. cbn [bind]. rewrite M4. reflexivity.
      + destruct (mapM _ ds) as [r1|] eqn:M1; cbn [bind] in H1; [|discriminate]. injection H1 as <-.
        cbn [mapM] in H2. unfold with_measurement at 1 in H2; cbn [snd fst bind] in H2.
        destruct (mapM _ r1) as [r2|] eqn:M2; cbn [bind] in H2; [|discriminate]. injection H2 as <-.
        destruct (IH r1 r2 eq_refl M2) as (r3 & r4 & M3 & M4).
        exists ((s, None) :: r3), ((s, None) :: r4). cbn [mapM]. unfold with_measurement at 1 3. cbn [snd fst bind]. rewrite M3.
        split; [reflexivity|]. cbn [bind]. rewrite M4. reflexivity. }
  assert (Idem : forall n, fix_report_name (fix_report_name n) = fix_report_name n).
  { intros n. destruct (fix_report_name_spec n) as [A B], (fix_report_name_spec (fix_report_name n)) as [A' B'].
    apply B'. destruct (in_dec string_dec n base_names) as [I|I]; [rewrite (A I); simpl; intuition discriminate|rewrite (B I); exact I]. }
  induction H as [|r r' l l' E F IH].
  - exists []. auto.
  - destruct IH as (l2 & M & Nm).
    destruct (mapM (with_measurement validate_report_measurement_dict) _) as [d1|] eqn:E1; cbn [bind] in E; [|discriminate].
    destruct (mapM (with_measurement add_namespace) d1) as [d2|] eqn:E2; cbn [bind] in E; [|discriminate]. injection E as <-.
    destruct (D _ _ _ E1 E2) as (d3 & d4 & M3 & M4).
    eexists. cbn [mapM]. cbn [rd_descriptions]. rewrite M3. cbn [bind]. rewrite M4. cbn [bind]. cbn [rd_name]. rewrite M. cbn [bind].
    split; [reflexivity|]. cbn [map rd_name]. rewrite Idem, Nm. reflexivity.
Qed.

(** The VTN takes nine characters off any other name as well. *)
Example C42_other_name : registered_name (fix_report_name "my_report") = "".
Proof. reflexivity. Qed.

Example C42_example :
  registered_name "METADATA_TELEMETRY_USAGE" = "TELEMETRY_USAGE" /\
  exists l, registrations 2 [mk_rd "TELEMETRY_USAGE" (SStr "s") [(SStr "r1", Some (Measurement "voltage" "Voltage" "V" None None None)); (SStr "r2", None)]] l
            /\ map rd_name l = ["METADATA_TELEMETRY_USAGE"].
Proof.
  split; [reflexivity|].
  set (l0 := [mk_rd _ _ _]).
  set (l1 := match preflight_register l0 with Ok l => l | Raise _ => [] end).
  set (l2 := match preflight_register l1 with Ok l => l | Raise _ => [] end).
  exists l2. split; [|vm_compute; reflexivity].
  apply (reg_more 1 l0 l1 l2); [apply (reg_more 0 l0 l0 l1); [apply reg_none|]|]; vm_compute; reflexivity.
Qed.

Print Assumptions C38_exact.
Print Assumptions C38_conforms.
Print Assumptions C38_accepts.
Print Assumptions C38_value_error_refuted.
Print Assumptions C38_refusal_partial.
Print Assumptions C39_current_value_refuted.
Print Assumptions C39_second_time_refuted.
Print Assumptions C39_preserves_partial.
Print Assumptions C39_idempotent_partial.
Print Assumptions C42_metadata.
Print Assumptions C42_exactly_once.
Print Assumptions C42_recovered.
Print Assumptions C42_again.
