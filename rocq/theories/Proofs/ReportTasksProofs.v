(** Proofs about the report service with several messages at a time. *)
From Coq Require Import ZArith String List Bool Lia Permutation.
From Verif.Base Require Import Result Dict PyStr ListExtra.
From Verif.Model Require Import Reports ReportService ReportTasks.
From Verif.Spec Require Import ReportSpec ReportServiceSpec ReportTasksSpec.
From Verif.Proofs Require Import ReportProofs ReportServiceProofs.
Import ListNotations.
Local Open Scope list_scope.

(** ** Tables of tasks *)
Lemma tasks_del {V B} (f : nat * V -> list B) t x d : get Nat.eqb t d = Some x -> Permutation (flat_map f d) (f (t, x) ++ flat_map f (del Nat.eqb t d)).
Proof.
  induction d as [|[k v] d IH]; cbn; [discriminate|]. destruct (Nat.eqb t k) eqn:E.
  - intros [= <-]. apply PeanoNat.Nat.eqb_eq in E as ->. reflexivity.
  - intros G. cbn. rewrite (IH G), !app_assoc. apply Permutation_app_tail, Permutation_app_comm.
Qed.
Lemma tasks_set {V B} (f : nat * V -> list B) t x d : Permutation (flat_map f (set Nat.eqb t x d)) (f (t, x) ++ flat_map f (del Nat.eqb t d)).
Proof.
  induction d as [|[k v] d IH]; cbn; [reflexivity|]. destruct (Nat.eqb t k) eqn:E.
  - apply PeanoNat.Nat.eqb_eq in E as ->. reflexivity.
  - cbn. rewrite IH, !app_assoc. apply Permutation_app_tail, Permutation_app_comm.
Qed.
Lemma tasks_absent {V} t (d : dict nat V) : get Nat.eqb t d = None -> del Nat.eqb t d = d.
Proof. induction d as [|[k v] d IH]; cbn; [reflexivity|]. destruct (Nat.eqb t k); [discriminate|]. intros G. now rewrite IH. Qed.
Lemma in_del {V} t (d : dict nat V) p : In p (del Nat.eqb t d) -> In p d.
Proof. induction d as [|[k v] d IH]; cbn; [auto|]. destruct (Nat.eqb t k); [auto|]. intros [<-|I]; auto. Qed.
Lemma in_set {V} t (x : V) d p : In p (set Nat.eqb t x d) -> p = (t, x) \/ In p d.
Proof.
  induction d as [|[k v] d IH]; cbn; [intros [<-|[]]; auto|]. destruct (Nat.eqb t k) eqn:E.
  - apply PeanoNat.Nat.eqb_eq in E as ->. intros [<-|I]; auto.
  - intros [<-|I]; [auto|]. destruct (IH I); auto.
Qed.

(** ** register_report *)
Lemma ask_skips h ven i report : is_telemetry report = false -> ask h ven i report = Ok None.
Proof. unfold is_telemetry, ask. intros E. apply orb_false_iff in E as [E1 E2]. now rewrite E1, E2. Qed.

Lemma entered_enroll ven report s w : entered (enroll ven report s) w = if scalar_eqb w ven then entered s ven ++ [renamed report] else entered s w.
Proof. unfold entered, enroll. cbn. rewrite (get_set scalar_eqb scalar_eqb_eq). now destruct (scalar_eqb w ven). Qed.

Lemma advance_spec ven rest : forall i results s s' i' rest' results', advance ven i rest results s = (s', (i', rest', results')) ->
  report_callbacks (srv s') = report_callbacks (srv s) /\ requested (srv s') = requested (srv s) /\ created s' = created s /\
  exists skipped, rest = skipped ++ rest' /\ i' = (i + length skipped)%nat /\
    (forall w, entered s' w = if scalar_eqb w ven then entered s ven ++ map renamed (skipped ++ firstn 1 rest') else entered s w) /\
    (match rest' with [] => True | report :: _ => is_telemetry report = true end) /\
    exists more, results' = results ++ more /\
      forall h reg, collect h ven i rest reg = (let '(reg', y) := collect h ven i' rest' (reg ++ map renamed skipped) in (reg', bind y (fun l => Ok (more ++ l)))).
Proof.
  induction rest as [|report r IH]; intros i results s s' i' rest' results' E; cbn [advance] in E.
  - injection E as <- <- <- <-. repeat split. exists []. repeat split; [cbn; lia| |].
    + intros w. cbn. rewrite app_nil_r. destruct (scalar_eqb w ven) eqn:W; [apply scalar_eqb_eq in W as ->|]; reflexivity.
    + exists []. split; [now rewrite app_nil_r|]. intros h reg. cbn. now rewrite app_nil_r.
  - destruct (is_telemetry report) eqn:T.
    + injection E as <- <- <- <-. repeat split. exists []. repeat split; [cbn; lia| |assumption|].
      * intros w. rewrite entered_enroll. reflexivity.
      * exists []. split; [now rewrite app_nil_r|]. intros h reg. cbn [map]. rewrite app_nil_r. destruct (collect h ven i (report :: r) reg) as [reg' []]; reflexivity.
    + apply IH in E as (A & B & C & skipped & -> & -> & R & H & more & -> & Q). repeat split; [exact A|exact B|exact C|].
      exists (report :: skipped). repeat split; [cbn; lia| |assumption|].
      * intros w. rewrite R, !entered_enroll. rewrite (proj2 (scalar_eqb_eq ven ven) eq_refl). destruct (scalar_eqb w ven); [|reflexivity]. cbn. now rewrite <- app_assoc.
      * exists (None :: more). split; [now rewrite <- app_assoc|]. intros h reg. cbn [collect]. rewrite (ask_skips _ _ _ _ T). rewrite Q. cbn [map]. rewrite <- app_assoc. cbn [app].
        replace (S i + length skipped)%nat with (i + length (report :: skipped))%nat by (cbn; lia).
        destruct (collect h ven (i + length (report :: skipped)) rest' (reg ++ renamed report :: map renamed skipped)) as [reg' [l|e]]; reflexivity.
Qed.

(** A task that waits for the handler. *)
Definition waiting (fresh : nat -> string) (h : on_register) (ven : scalar) (reports : list offered) (i : nat) (rest : list offered) (results : list (option (list entry))) : Prop :=
  exists before, reports = before ++ rest /\ length before = i /\
  forall reg, collect h ven 0 reports reg = (let '(reg', y) := collect h ven i rest (reg ++ map renamed before) in (reg', bind y (fun l => Ok (results ++ l)))).
Definition task_ok (x : task) : Prop :=
  match x with
  | Registering fresh h ven reports i rest results => waiting fresh h ven reports i rest results /\ exists report r, rest = report :: r /\ is_telemetry report = true
  | Updating user ven reports d request groups rest => True
  end.
Definition pending (w : scalar) (p : nat * task) : list offered :=
  match snd p with Registering _ _ ven reports i _ _ => if scalar_eqb w ven then map renamed (firstn (S i) reports) else [] | Updating _ _ _ _ _ _ _ => [] end.

Record sound (y : system) (es : list effect) : Prop := {
  so_callbacks : report_callbacks (srv (st y)) = report_callbacks (srv (after (served es)));
  so_requested : requested (srv (st y)) = requested (srv (after (served es)));
  so_created : created (st y) = created (after (served es));
  so_tasks : forall t x, In (t, x) (tasks y) -> task_ok x;
  so_entered : forall w, Permutation (entered (st y) w) (entered (after (served es)) w ++ flat_map (pending w) (tasks y))
}.

Lemma served_app a b : served (a ++ b) = served a ++ served b.
Proof. apply flat_map_app. Qed.

(** A registration as a whole. *)
Lemma register_all fresh h ven reports s : forall reg y, collect h ven 0 reports (entered s ven) = (reg, y) ->
  handle (Register fresh h ven (Some reports)) s =
  (let registered' := match reports with [] => registered (srv s) | _ => set scalar_eqb ven reg (registered (srv s)) end in
   match y with
   | Raise e => (mk_state (mk_service registered' (requested (srv s)) (report_callbacks (srv s))) (created s), Registered (Raise e))
   | Ok results => match form fresh 0 reports (validate_report_request_tuples results) (report_callbacks (srv s)) with
                   | (cbs, Raise e) => (mk_state (mk_service registered' (requested (srv s)) cbs) (created s), Registered (Raise e))
                   | (cbs, Ok qs) => (mk_state (mk_service registered' (set scalar_eqb ven qs (requested (srv s))) cbs) (created s), Registered (Ok qs))
                   end
   end).
Proof.
  intros reg y E. unfold handle, register_report. unfold entered in E. rewrite E. destruct y as [results|e]; [|reflexivity].
  now destruct (form fresh 0 reports (validate_report_request_tuples results) (report_callbacks (srv s))) as [cbs [qs|e]].
Qed.
Lemma entered_register fresh h ven reports s reg y w : collect h ven 0 reports (entered s ven) = (reg, y) ->
  entered (fst (handle (Register fresh h ven (Some reports)) s)) w = if scalar_eqb w ven then reg else entered s w.
Proof.
  intros E. rewrite (register_all fresh h ven reports s reg y E).
  assert (G : forall q c k, entered (mk_state (mk_service (match reports with [] => registered (srv s) | _ => set scalar_eqb ven reg (registered (srv s)) end) q c) k) w = if scalar_eqb w ven then reg else entered s w).
  { intros q c k. unfold entered. cbn. destruct reports as [|report r].
    - cbn in E. injection E as <- _. destruct (scalar_eqb w ven) eqn:W; [apply scalar_eqb_eq in W as ->|]; reflexivity.
    - rewrite (get_set scalar_eqb scalar_eqb_eq). now destruct (scalar_eqb w ven). }
  destruct y as [results|e]; [|apply G]. destruct (form _ _ _ _ _) as [cbs [qs|e]]; apply G.
Qed.

(** What an answer has to be. *)
Definition truthful (hist : list message) (e : effect) : Prop :=
  match e with
  | Answered _ m r => snd (handle m (after hist)) = Registered r
  | Checked m r => snd (handle m (after hist)) = Missing r
  | _ => True
  end.

Lemma firstn_before {A} (before rest : list A) : firstn (length before) (before ++ rest) = before.
Proof. rewrite firstn_app, PeanoNat.Nat.sub_diag, firstn_all. cbn. apply app_nil_r. Qed.

Lemma proceed_sound t fresh h ven reports i rest results y es y' es' :
  report_callbacks (srv (st y)) = report_callbacks (srv (after (served es))) -> requested (srv (st y)) = requested (srv (after (served es))) -> created (st y) = created (after (served es)) ->
  (forall u x, In (u, x) (tasks y) -> task_ok x) -> waiting fresh h ven reports i rest results ->
  (forall w, Permutation (entered (st y) w) (entered (after (served es)) w ++ (if scalar_eqb w ven then map renamed (firstn i reports) else []) ++ flat_map (pending w) (del Nat.eqb t (tasks y)))) ->
  proceed t fresh h ven reports i rest results y = (y', es') -> sound y' (es ++ es') /\ Forall (truthful (served es)) es' /\ (length es' <= 1)%nat.
Proof.
  intros C Q K T (before & -> & <- & W) P E. unfold proceed in E.
  destruct (advance ven (length before) rest results (st y)) as [s' [[i' rest'] results']] eqn:A.
  apply advance_spec in A as (A1 & A2 & A3 & skipped & -> & -> & R & H & more & -> & M).
  assert (W' : forall reg, collect h ven 0 (before ++ skipped ++ rest') reg = (let '(reg', y0) := collect h ven (length before + length skipped) rest' (reg ++ map renamed (before ++ skipped)) in (reg', bind y0 (fun l => Ok ((results ++ more) ++ l))))).
  { intros reg. rewrite W, M, map_app, app_assoc. destruct (collect h ven (length before + length skipped) rest' ((reg ++ map renamed before) ++ map renamed skipped)) as [reg' [l|e]]; cbn; [|reflexivity]. now rewrite app_assoc. }
  rewrite firstn_before in P.
  destruct rest' as [|report r].
  - rewrite app_nil_r in W'. rewrite app_nil_r in E. cbn [collect bind] in W'. rewrite app_nil_r in W'. rewrite !app_nil_r in R.
    unfold conclude in E. rewrite A1, A2, A3, C, Q, K in E.
    pose proof (W' (entered (after (served es)) ven)) as X. pose proof (register_all fresh h ven (before ++ skipped) (after (served es)) _ _ X) as Y.
    assert (N : forall w, entered (fst (handle (Register fresh h ven (Some (before ++ skipped))) (after (served es)))) w = if scalar_eqb w ven then entered (after (served es)) ven ++ map renamed (before ++ skipped) else entered (after (served es)) w) by (intros w; apply (entered_register _ _ _ _ _ _ _ w X)).
    assert (Z : forall q c k w, Permutation (entered (mk_state (mk_service (registered (srv s')) q c) k) w) (entered (fst (handle (Register fresh h ven (Some (before ++ skipped))) (after (served es)))) w ++ flat_map (pending w) (del Nat.eqb t (tasks y)))).
    { intros q c k w. change (entered (mk_state (mk_service (registered (srv s')) q c) k) w) with (entered s' w). rewrite R, N. destruct (scalar_eqb w ven) eqn:EW.
      - apply scalar_eqb_eq in EW as ->. rewrite (P ven), (proj2 (scalar_eqb_eq ven ven) eq_refl), map_app, <- !app_assoc. apply Permutation_app_head, Permutation_app_head, Permutation_app_comm.
      - rewrite (P w), EW. reflexivity. }
    destruct (form fresh 0 (before ++ skipped) (validate_report_request_tuples (results ++ more)) (report_callbacks (srv (after (served es))))) as [cbs [qs|e]] eqn:F; cbv zeta beta iota in Y; rewrite F in Y; injection E as <- <-;
      (split; [|split; [constructor; [cbn [truthful]; now rewrite Y|constructor]|cbn; lia]]);
      (constructor; rewrite ?served_app; cbn [served flat_map app]; rewrite ?after_snoc; [now rewrite Y|now rewrite Y|now rewrite Y|intros u x I; apply (T u x); eapply in_del; exact I|apply Z]).
  - injection E as <- <-. rewrite app_nil_r. split; [|split; [constructor|cbn; lia]]. constructor; cbn [st tasks].
    + now rewrite A1.
    + now rewrite A2.
    + now rewrite A3.
    + intros u x I. apply in_set in I as [[= -> ->]|I]; [|now apply (T u)]. cbn [task_ok]. split; [|now exists report, r].
      exists (before ++ skipped). split; [now rewrite app_assoc|]. split; [now rewrite app_length|]. exact W'.
    + intros w. rewrite R, (tasks_set (pending w)). cbn [pending snd]. replace (firstn (S (length before + length skipped)) (before ++ skipped ++ report :: r)) with (before ++ skipped ++ [report]).
      2:{ rewrite (app_assoc before skipped (report :: r)). replace (before ++ skipped ++ [report]) with ((before ++ skipped) ++ [report]) by now rewrite app_assoc.
          change (report :: r) with ([report] ++ r). rewrite app_assoc. rewrite <- (firstn_before ((before ++ skipped) ++ [report]) r) at 1. f_equal. rewrite !app_length. cbn. lia. }
      destruct (scalar_eqb w ven) eqn:EW.
      * apply scalar_eqb_eq in EW as ->. rewrite (P ven), (proj2 (scalar_eqb_eq ven ven) eq_refl), !map_app, <- !app_assoc. apply Permutation_app_head, Permutation_app_head. cbn [firstn map]. rewrite Permutation_app_comm, <- !app_assoc. reflexivity.
      * rewrite (P w), EW. reflexivity.
Qed.

Lemma hand_out_sound t user ven reports request groups rest y es y' es' : sound y es -> (forall u x, get Nat.eqb t (tasks y) = Some x -> pending u (t, x) = []) ->
  hand_out t user ven reports request groups rest y = (y', es') -> sound y' (es ++ es') /\ Forall (truthful (served es)) es' /\ (length es' <= 1)%nat.
Proof.
  intros S N E. assert (D : forall w, Permutation (flat_map (pending w) (del Nat.eqb t (tasks y))) (flat_map (pending w) (tasks y))).
  { intros w. destruct (get Nat.eqb t (tasks y)) as [x|] eqn:G; [|now rewrite tasks_absent]. rewrite (tasks_del (pending w) t x (tasks y) G), (N w x eq_refl). reflexivity. }
  destruct S as [S1 S2 S3 S4 S5]. unfold hand_out in E. destruct (next _ _ _ _) as [[[[d req] g] rs]|]; injection E as <- <-; (split; [|split; [repeat constructor|cbn; lia]]);
    (constructor; rewrite ?served_app; cbn [served flat_map app st tasks]; rewrite ?app_nil_r; try assumption).
  - intros u x I. apply in_set in I as [[= -> ->]|I]; [exact Logic.I|now apply (S4 u)].
  - intros w. rewrite (tasks_set (pending w)), (S5 w). cbn [pending snd app]. now rewrite D.
  - intros u x I. apply (S4 u x). eapply in_del. exact I.
  - intros w. rewrite D. apply S5.
Qed.

Lemma step_sound y es l y' es' : sound y es -> step y l = Some (y', es') -> sound y' (es ++ es') /\ Forall (truthful (served es)) es' /\ (length es' <= 1)%nat.
Proof.
  intros S E. destruct l as [t fresh h ven reports|t user ven reports|ven pend|t]; cbn [step] in E.
  - destruct (get Nat.eqb t (tasks y)) eqn:G; [discriminate|]. destruct reports as [reports|].
    + injection E as E. destruct S as [S1 S2 S3 S4 S5]. eapply proceed_sound; [exact S1|exact S2|exact S3|exact S4| | |exact E].
      * exists []. repeat split. intros reg. cbn [map]. rewrite app_nil_r. destruct (collect h ven 0 reports reg) as [reg' []]; reflexivity.
      * intros w. rewrite (tasks_absent t _ G). cbn [firstn map]. destruct (scalar_eqb w ven); apply S5.
    + injection E as <- <-. destruct S as [S1 S2 S3 S4 S5]. split; [|split; [repeat constructor|cbn; lia]].
      constructor; rewrite ?served_app; cbn [served flat_map app]; rewrite ?after_snoc; cbn [handle register_report fst srv created]; assumption.
  - destruct (get Nat.eqb t (tasks y)) eqn:G; [discriminate|]. injection E as E. eapply hand_out_sound; [exact S| |exact E]. intros u x. rewrite G. discriminate.
  - destruct S as [S1 S2 S3 S4 S5]. destruct (created_report ven pend (created (st y)) (requested (srv (st y)))) as [c r] eqn:X. injection E as <- <-. rewrite S3, S2 in X.
    split; [|split; [constructor; [|constructor]|cbn; lia]].
    + assert (A : after (served (es ++ [Checked (Created ven pend) r])) = mk_state (srv (after (served es))) c) by (rewrite served_app; cbn [served flat_map app]; rewrite after_snoc; cbn [handle]; now rewrite X).
      constructor; rewrite ?A; [exact S1|exact S2|reflexivity|exact S4|]. intros w. apply S5.
    + cbn [truthful handle]. now rewrite X.
  - destruct (get Nat.eqb t (tasks y)) as [[fresh h ven reports i rest results|user ven reports d request groups rest]|] eqn:G; [| |discriminate].
    + destruct rest as [|report r]; [discriminate|]. injection E as E. destruct S as [S1 S2 S3 S4 S5].
      pose proof (get_in Nat.eqb PeanoNat.Nat.eqb_eq _ _ _ G) as I. pose proof (S4 _ _ I) as [(before & -> & <- & W) (report' & r' & [= <- <-] & TT)].
      assert (P : forall w, Permutation (entered (st y) w) (entered (after (served es)) w ++ (if scalar_eqb w ven then map renamed (before ++ [report]) else []) ++ flat_map (pending w) (del Nat.eqb t (tasks y)))).
      { intros w. rewrite (S5 w). apply Permutation_app_head. rewrite (tasks_del (pending w) t _ _ G). cbn [pending snd]. replace (firstn (S (length before)) (before ++ report :: r)) with (before ++ [report]); [reflexivity|].
        change (report :: r) with ([report] ++ r). rewrite app_assoc. rewrite <- (firstn_before (before ++ [report]) r) at 1. f_equal. rewrite app_length. cbn. lia. }
      destruct (ask h ven (length before) report) as [x|e] eqn:K.
      * eapply proceed_sound; [exact S1|exact S2|exact S3|exact S4| | |exact E].
        -- exists (before ++ [report]). split; [now rewrite <- app_assoc|]. split; [rewrite app_length; cbn; lia|]. intros reg. rewrite W. cbn [collect]. rewrite K. rewrite map_app, <- !app_assoc. cbn [map app].
           destruct (collect h ven (S (length before)) r (reg ++ map renamed before ++ [renamed report])) as [reg' [l|e]]; cbn; [|reflexivity]. now rewrite <- app_assoc.
        -- intros w. rewrite P. replace (firstn (S (length before)) (before ++ report :: r)) with (before ++ [report]); [reflexivity|].
           change (report :: r) with ([report] ++ r). rewrite app_assoc. rewrite <- (firstn_before (before ++ [report]) r) at 1. f_equal. rewrite app_length. cbn. lia.
      * injection E as <- <-. pose proof (W (entered (after (served es)) ven)) as X. cbn [collect] in X. rewrite K in X. cbn [bind] in X. rewrite <- app_assoc in X.
        pose proof (register_all fresh h ven _ (after (served es)) _ _ X) as Y. pose proof (fun w => entered_register fresh h ven _ (after (served es)) _ _ w X) as N.
        split; [|split; [constructor; [cbn [truthful]; now rewrite Y|constructor]|cbn; lia]].
        constructor; rewrite ?served_app; cbn [served flat_map app st tasks]; rewrite ?after_snoc; [now rewrite Y|now rewrite Y|now rewrite Y|intros u x J; apply (S4 u x); eapply in_del; exact J|].
        intros w. rewrite N. rewrite (P w). destruct (scalar_eqb w ven) eqn:EW; [|reflexivity]. apply scalar_eqb_eq in EW as ->. rewrite map_app, <- !app_assoc. reflexivity.
    + injection E as E. assert (N : forall u x, get Nat.eqb t (tasks y) = Some x -> pending u (t, x) = []) by (intros u x; rewrite G; now intros [= <-]).
      destruct (user d) as [[]|e] eqn:U; [eapply hand_out_sound; eassumption|]. injection E as <- <-. destruct S as [S1 S2 S3 S4 S5]. split; [|split; [repeat constructor|cbn; lia]].
      constructor; rewrite ?served_app; cbn [served flat_map app st tasks]; rewrite ?app_nil_r; try assumption.
      * intros u x J. apply (S4 u x). eapply in_del. exact J.
      * intros w. rewrite (S5 w), (tasks_del (pending w) t _ _ G). reflexivity.
Qed.

Lemma start_sound : sound start [].
Proof. constructor; try reflexivity. intros t x []. Qed.
Lemma runs_sound P ls es y : runs P start ls es y -> sound y es.
Proof. induction 1 as [|ls es y1 l es1 y2 _ IH _ E]; [exact start_sound|]. now apply (step_sound y1 es l y2 es1). Qed.
Lemma runs_truthful P ls es y es1 e es2 : runs P start ls es y -> es = es1 ++ e :: es2 -> truthful (served es1) e.
Proof.
  intros R. revert es1 e es2. induction R as [|ls es y1 l es' y2 R IH _ E]; intros es1 e es2 Q; [now destruct es1|].
  destruct (step_sound y1 es l y2 es' (runs_sound _ _ _ _ R) E) as (_ & T & L). destruct es' as [|e' [|]]; [rewrite app_nil_r in Q; now apply (IH es1 e es2)| |cbn in L; lia].
  destruct es2 as [|e2 es2'] using rev_ind; [|clear IHes2'].
  - apply app_inj_tail in Q as [-> ->]. now apply Forall_inv in T.
  - rewrite app_comm_cons, app_assoc in Q. apply app_inj_tail in Q as [-> _]. now apply (IH es1 e es2').
Qed.

(** ** update_report *)
Definition pairs (values : list rinterval) : list (Z * scalar) := map (fun ri => (ri_dtstart ri, ri_value ri)) values.
Definition of_group (cbs : callbacks) (request : string) (p : scalar * list rinterval) : list delivery :=
  match get key_eqb (request, fst p) cbs with Some c => [Deliver c (pairs (snd p))] | None => [] end.
Definition todo (cbs : callbacks) (request : string) (groups : list (scalar * list rinterval)) (rest : list received) : list delivery :=
  flat_map (of_group cbs request) groups ++ flat_map (deliveries cbs) rest.

Lemma groups_spec l r values : In (r, values) (group_intervals l) -> In r (map ri_rid l) /\ pairs values = pairs_of r l.
Proof.
  intros I. destruct (grouped_spec l []) as (_ & B & C); [constructor|intros ? ? []|]. change (fold_left _ l []) with (group_intervals l) in B, C. split.
  - destruct (proj1 (B r)) as [[]|J]; [|exact J]. change r with (fst (r, values)). now apply in_map.
  - rewrite (C r values I). reflexivity.
Qed.
Lemma groups_all l r : In r (map ri_rid l) -> exists values, In (r, values) (group_intervals l).
Proof.
  intros I. destruct (grouped_spec l []) as (_ & B & _); [constructor|intros ? ? []|]. change (fold_left _ l []) with (group_intervals l) in B.
  destruct (proj1 (in_map_iff _ _ _) (proj2 (B r) (or_intror I))) as ([r' values] & E & J). cbn in E. subst r'. now exists values.
Qed.

Lemma seek_todo cbs request groups : match seek cbs request groups with
  | Some (d, g) => flat_map (of_group cbs request) groups = d :: flat_map (of_group cbs request) g
  | None => flat_map (of_group cbs request) groups = []
  end.
Proof.
  induction groups as [|[r values] g IH]; [reflexivity|]. cbn [seek flat_map]. change (of_group cbs request (r, values)) with (match get key_eqb (request, r) cbs with Some c => [Deliver c (pairs values)] | None => [] end).
  destruct (get key_eqb (request, r) cbs) as [c|]; [reflexivity|]. destruct (seek cbs request g) as [[d g']|]; exact IH.
Qed.
Lemma deliveries_groups cbs report : cbs <> [] -> deliveries cbs report = flat_map (of_group cbs (rc_request report)) (group_intervals (rc_intervals report)).
Proof.
  intros N. unfold deliveries. destruct cbs as [|p cbs]; [congruence|]. induction (group_intervals (rc_intervals report)) as [|[r values] g IH]; [reflexivity|]. cbn [flat_map]. rewrite IH. reflexivity.
Qed.
Lemma next_todo cbs rest : forall request groups, match next cbs request groups rest with
  | Some (d, r', g', rest') => todo cbs request groups rest = d :: todo cbs r' g' rest'
  | None => todo cbs request groups rest = []
  end.
Proof.
  induction rest as [|report rest IH]; intros request groups; unfold todo; cbn [next]; pose proof (seek_todo cbs request groups) as S; destruct (seek cbs request groups) as [[d g]|]; rewrite S; try reflexivity.
  destruct cbs as [|p cbs]; [reflexivity|]. specialize (IH (rc_request report) (group_intervals (rc_intervals report))). unfold todo in IH.
  destruct (next (p :: cbs) _ _ rest) as [[[[d r'] g'] rest']|]; cbn [app flat_map]; rewrite (deliveries_groups (p :: cbs) report) by discriminate; exact IH.
Qed.

(** Steps of others leave a request alone. *)
Lemma get_set_nat {V} t u (x : V) d : u <> t -> get Nat.eqb t (set Nat.eqb u x d) = get Nat.eqb t d.
Proof. intros N. apply (get_set_other Nat.eqb PeanoNat.Nat.eqb_eq). congruence. Qed.
Lemma get_del_nat {V} t u (d : dict nat V) : u <> t -> get Nat.eqb t (del Nat.eqb u d) = get Nat.eqb t d.
Proof. intros N. apply (get_del_other Nat.eqb PeanoNat.Nat.eqb_eq). congruence. Qed.

Lemma proceed_frame t u fresh h ven reports i rest results y y' es : u <> t -> proceed u fresh h ven reports i rest results y = (y', es) ->
  get Nat.eqb t (tasks y') = get Nat.eqb t (tasks y) /\ handed t es = [] /\ unfinished t es.
Proof.
  intros N E. unfold proceed in E. destruct (advance ven i rest results (st y)) as [s [[i' rest'] results']]. destruct rest'.
  - destruct (conclude fresh ven reports results' s) as [s' r]. injection E as <- <-. cbn [tasks]. rewrite get_del_nat by assumption. repeat split. intros m r' [[=]|[]].
  - injection E as <- <-. cbn [tasks]. rewrite get_set_nat by assumption. repeat split. intros m r' [].
Qed.
Lemma hand_out_frame t u user ven reports request groups rest y y' es : u <> t -> hand_out u user ven reports request groups rest y = (y', es) ->
  get Nat.eqb t (tasks y') = get Nat.eqb t (tasks y) /\ handed t es = [] /\ unfinished t es.
Proof.
  intros N E. unfold hand_out in E. destruct (next _ _ _ _) as [[[[d r'] g'] rest']|]; injection E as <- <-; cbn [tasks].
  - rewrite get_set_nat by assumption. cbn. destruct (Nat.eq_dec u t); [contradiction|]. repeat split. intros m r [[=]|[]].
  - rewrite get_del_nat by assumption. repeat split. intros m r [[= -> _ _]|[]]. contradiction.
Qed.
Lemma step_frame t x y l y' es : get Nat.eqb t (tasks y) = Some x -> step y l = Some (y', es) -> l = LResume t \/ get Nat.eqb t (tasks y') = Some x /\ handed t es = [] /\ unfinished t es.
Proof.
  intros G E. rewrite <- G. destruct l as [u fresh h ven reports|u user ven reports|ven pend|u]; cbn [step] in E.
  - right. destruct (Nat.eq_dec u t) as [->|N]; [rewrite G in E; discriminate|]. destruct (get Nat.eqb u (tasks y)); [discriminate|]. injection E as E. destruct reports; [eapply proceed_frame; eassumption|].
    injection E as <- <-. repeat split. intros m r [[=]|[]].
  - right. destruct (Nat.eq_dec u t) as [->|N]; [rewrite G in E; discriminate|]. destruct (get Nat.eqb u (tasks y)); [discriminate|]. injection E as E. eapply hand_out_frame; eassumption.
  - right. destruct (created_report _ _ _ _) as [c r]. injection E as <- <-. repeat split. intros m r' [[=]|[]].
  - destruct (Nat.eq_dec u t) as [->|N]; [now left|]. right. destruct (get Nat.eqb u (tasks y)) as [[fresh h ven reports i rest results|user ven reports d request groups rest]|]; [| |discriminate].
    + destruct rest as [|report r]; [discriminate|]. injection E as E. destruct (ask h ven i report); [eapply proceed_frame; eassumption|]. injection E as <- <-. cbn [tasks]. rewrite get_del_nat by assumption. repeat split. intros m r' [[=]|[]].
    + injection E as E. destruct (user d); [eapply hand_out_frame; eassumption|]. injection E as <- <-. cbn [tasks]. rewrite get_del_nat by assumption. repeat split. intros m r' [[= -> _ _]|[]]. contradiction.
Qed.

Lemma handed_app t a b : handed t (a ++ b) = handed t a ++ handed t b.
Proof. apply flat_map_app. Qed.

(** One update, from its arrival on, in terms of a relation [I] between what
    was handed out and what is to come. *)
Section One.
Context (t : nat) (user : delivery -> result unit) (ven : scalar) (reports : list received) (P : system -> Prop)
  (I : list delivery -> string -> list (scalar * list rinterval) -> list received -> Prop).
Context (I_start : I [] ""%string [] reports).
Context (I_next : forall y H request groups rest, P y -> I H request groups rest -> (forall d, In d H -> exists u, user d = Ok u) ->
  forall d r' g' rest', next (callbacks_of y) request groups rest = Some (d, r', g', rest') -> I (H ++ [d]) r' g' rest').

Lemma one_update y0 y1 es1 ls es y2 : P y0 -> step y0 (LUpdate t user ven reports) = Some (y1, es1) -> runs P y1 ls es y2 ->
  (unfinished t (es1 ++ es) -> exists H d request groups rest, get Nat.eqb t (tasks y2) = Some (Updating user ven reports d request groups rest) /\
     handed t (es1 ++ es) = H ++ [d] /\ (forall d', In d' H -> exists u, user d' = Ok u) /\ I (H ++ [d]) request groups rest) /\
  (forall pre m r, es1 ++ es = pre ++ [Updated t m r] -> unfinished t pre -> m = Update user ven reports /\
     exists request groups rest, I (handed t pre) request groups rest /\
       ((r = Ok tt /\ (forall d', In d' (handed t pre) -> exists u, user d' = Ok u) /\ exists y, P y /\ next (callbacks_of y) request groups rest = None) \/
        (exists H d e, handed t pre = H ++ [d] /\ (forall d', In d' H -> exists u, user d' = Ok u) /\ user d = Raise e /\ r = Raise e))).
Proof.
  intros P0 E R. cbn [step] in E. destruct (get Nat.eqb t (tasks y0)) eqn:G0; [discriminate|]. injection E as E.
  induction R as [|ls es y l es' y' R IH PY S].
  - rewrite app_nil_r. unfold hand_out in E. destruct (next _ _ _ _) as [[[[d r'] g'] rest']|] eqn:N; injection E as <- <-.
    + split.
      * intros _. exists [], d, r', g', rest'. cbn [tasks]. rewrite (get_set_same Nat.eqb PeanoNat.Nat.eqb_eq). split; [reflexivity|]. split; [cbn; destruct (Nat.eq_dec t t); [reflexivity|contradiction]|].
        split; [intros ? []|]. apply (I_next y0 [] ""%string [] reports P0 I_start); [intros ? []|exact N].
      * intros pre m r Q. destruct pre as [|? [|]]; discriminate Q.
    + split; [intros U; exfalso; eapply U; left; reflexivity|]. intros pre m r Q _. destruct pre as [|? [|]]; [|discriminate Q..]. injection Q as <- <-. split; [reflexivity|].
      exists ""%string, [], reports. split; [exact I_start|]. left. split; [reflexivity|]. split; [intros ? []|]. exists y0. split; [exact P0|exact N].
  - destruct IH as [IH1 IH2]. rewrite app_assoc.
    assert (L : (length es' <= 1)%nat).
    { clear - S. destruct l as [u fresh h v rs|u us v rs|v pend|u]; cbn [step] in S.
      - destruct (get Nat.eqb u (tasks y)); [discriminate|]. injection S as S. destruct rs; [|injection S as _ <-; cbn; lia]. unfold proceed in S. destruct (advance _ _ _ _ _) as [s [[i' []] rs']]; [destruct (conclude _ _ _ _ _)|]; injection S as _ <-; cbn; lia.
      - destruct (get Nat.eqb u (tasks y)); [discriminate|]. injection S as S. unfold hand_out in S. destruct (next _ _ _ _) as [[[[? ?] ?] ?]|]; injection S as _ <-; cbn; lia.
      - destruct (created_report _ _ _ _). injection S as _ <-. cbn. lia.
      - destruct (get Nat.eqb u (tasks y)) as [[fr h v rs i rest results|us v rs d rq gs rest]|]; [| |discriminate].
        + destruct rest; [discriminate|]. injection S as S. destruct (ask _ _ _ _); [|injection S as _ <-; cbn; lia]. unfold proceed in S. destruct (advance _ _ _ _ _) as [s [[i' []] rs']]; [destruct (conclude _ _ _ _ _)|]; injection S as _ <-; cbn; lia.
        + injection S as S. destruct (us d); [|injection S as _ <-; cbn; lia]. unfold hand_out in S. destruct (next _ _ _ _) as [[[[? ?] ?] ?]|]; injection S as _ <-; cbn; lia. }
    assert (B : unfinished t (es1 ++ es) -> (unfinished t ((es1 ++ es) ++ es') -> exists H d request groups rest, get Nat.eqb t (tasks y') = Some (Updating user ven reports d request groups rest) /\
                  handed t ((es1 ++ es) ++ es') = H ++ [d] /\ (forall d', In d' H -> exists u, user d' = Ok u) /\ I (H ++ [d]) request groups rest) /\
                (forall m r, es' = [Updated t m r] -> m = Update user ven reports /\
                  exists request groups rest, I (handed t (es1 ++ es)) request groups rest /\
                    ((r = Ok tt /\ (forall d', In d' (handed t (es1 ++ es)) -> exists u, user d' = Ok u) /\ exists y, P y /\ next (callbacks_of y) request groups rest = None) \/
                     (exists H d e, handed t (es1 ++ es) = H ++ [d] /\ (forall d', In d' H -> exists u, user d' = Ok u) /\ user d = Raise e /\ r = Raise e)))).
    { intros U. destruct (IH1 U) as (H & d & request & groups & rest & G & HD & OK & J). destruct (step_frame t _ y l y' es' G S) as [->|(G' & H' & U')].
      - cbn [step] in S. rewrite G in S. injection S as S. destruct (user d) as [u|e] eqn:UD.
        + assert (OK' : forall d', In d' (H ++ [d]) -> exists u, user d' = Ok u) by (intros d' D; apply in_app_iff in D as [D|[<-|[]]]; [now apply OK|now exists u]).
          unfold hand_out in S. destruct (next _ _ _ _) as [[[[d2 r'] g'] rest']|] eqn:N; injection S as <- <-.
          * split; [|intros m r [=]]. intros _. exists (H ++ [d]), d2, r', g', rest'. cbn [tasks]. rewrite (get_set_same Nat.eqb PeanoNat.Nat.eqb_eq). split; [reflexivity|].
            split; [rewrite handed_app, HD; cbn; destruct (Nat.eq_dec t t); [reflexivity|contradiction]|]. split; [exact OK'|]. apply (I_next y (H ++ [d]) request groups rest PY J OK' d2 r' g' rest' N).
          * split; [intros U'; exfalso; eapply U'; apply in_app_iff; right; left; reflexivity|]. intros m r [= <- <-]. split; [reflexivity|]. exists request, groups, rest. rewrite HD. split; [exact J|]. left.
            split; [reflexivity|]. split; [exact OK'|]. exists y. split; [exact PY|exact N].
        + injection S as <- <-. split; [intros U'; exfalso; eapply U'; apply in_app_iff; right; left; reflexivity|]. intros m r [= <- <-]. split; [reflexivity|]. exists request, groups, rest. rewrite HD. split; [exact J|]. right.
          exists H, d, e. auto.
      - split.
        + intros _. exists H, d, request, groups, rest. split; [exact G'|]. split; [now rewrite handed_app, H', app_nil_r|]. auto.
        + intros m r ->. exfalso. apply (U' m r). now left. }
    split.
    + intros U. assert (UP : unfinished t (es1 ++ es)) by (intros m r X; apply (U m r); apply in_app_iff; now left). now apply (B UP).
    + intros pre m r Q U. destruct es' as [|e [|]]; [rewrite app_nil_r in Q; now apply (IH2 pre)| |cbn in L; lia]. apply app_inj_tail in Q as [<- ->]. now apply (B U).
Qed.
End One.

(** While the callbacks stay: exactly as without interruption. *)
Lemma update_quiet t user ven reports cbs y0 y1 es1 ls es y2 pre m r :
  callbacks_of y0 = cbs -> step y0 (LUpdate t user ven reports) = Some (y1, es1) -> runs (fun y => callbacks_of y = cbs) y1 ls es y2 ->
  es1 ++ es = pre ++ [Updated t m r] -> unfinished t pre -> m = Update user ven reports /\ update_report user cbs reports = (handed t pre, r).
Proof.
  intros C E R Q U.
  destruct (one_update t user ven reports (fun y => callbacks_of y = cbs) (fun H request groups rest => flat_map (deliveries cbs) reports = H ++ todo cbs request groups rest)) with (y0 := y0) (y1 := y1) (es1 := es1) (ls := ls) (es := es) (y2 := y2) as [_ X]; auto.
  - intros y H request groups rest CY J _ d r' g' rest' N. pose proof (next_todo (callbacks_of y) rest request groups) as T. rewrite N, CY in T. rewrite J, T, <- app_assoc. reflexivity.
  - destruct (X pre m r Q U) as (-> & request & groups & rest & J & K). split; [reflexivity|]. unfold update_report. rewrite J. destruct K as [(-> & OK & y & CY & N)|(H & d & e & HD & OK & UD & ->)].
    + pose proof (next_todo (callbacks_of y) rest request groups) as T. rewrite N, CY in T. rewrite T, app_nil_r. rewrite deliver_all_ok; [reflexivity|]. intros d D. destruct (OK d D) as ([] & ->). reflexivity.
    + rewrite HD, <- app_assoc. cbn [app]. clear - OK UD. induction H as [|d' H IH]; cbn [deliver_all app]; [now rewrite UD|]. destruct (OK d' (or_introl eq_refl)) as (u & ->). rewrite IH by (intros; apply OK; now right). reflexivity.
Qed.

(** A callback that stays gets its data. *)
Definition due (key : string * scalar) (report : received) (request : string) (groups : list (scalar * list rinterval)) (rest : list received) : Prop :=
  In report rest \/ request = fst key /\ exists values, In (snd key, values) groups /\ pairs values = pairs_of (snd key) (rc_intervals report).

Lemma seek_due cbs request groups key c values : get key_eqb key cbs = Some c -> request = fst key -> In (snd key, values) groups ->
  exists d g, seek cbs request groups = Some (d, g) /\ (d = Deliver c (pairs values) \/ In (snd key, values) g).
Proof.
  intros G ->. induction groups as [|[r v] g IH]; intros J; [destruct J|]. cbn [seek]. destruct (get key_eqb (fst key, r) cbs) as [c'|] eqn:E.
  - eexists _, _. split; [reflexivity|]. destruct J as [[= -> ->]|J]; [|now right]. left. rewrite <- surjective_pairing in E. rewrite E in G. injection G as ->. reflexivity.
  - destruct J as [[= -> ->]|J]; [rewrite <- surjective_pairing in E; congruence|]. now apply IH.
Qed.
Lemma next_due cbs key c report : get key_eqb key cbs = Some c -> rc_request report = fst key -> In (snd key) (map ri_rid (rc_intervals report)) ->
  forall rest request groups, due key report request groups rest ->
  exists d r' g' rest', next cbs request groups rest = Some (d, r', g', rest') /\ (d = Deliver c (pairs_of (snd key) (rc_intervals report)) \/ due key report r' g' rest').
Proof.
  intros G RQ RI. induction rest as [|rp rest IH]; intros request groups D.
  - destruct D as [[]|(-> & values & J & PV)]. destruct (seek_due cbs _ groups key c values G eq_refl J) as (d & g & S & K). cbn [next]. rewrite S. eexists d, _, g, _. split; [reflexivity|].
    destruct K as [->|K]; [left; now rewrite PV|]. right. right. split; [reflexivity|]. now exists values.
  - cbn [next]. destruct (seek cbs request groups) as [[d g]|] eqn:S.
    + eexists d, _, g, _. split; [reflexivity|]. destruct D as [D|(-> & values & J & PV)]; [right; now left|].
      destruct (seek_due cbs _ groups key c values G eq_refl J) as (d' & g' & S' & K). rewrite S in S'. injection S' as <- <-. destruct K as [->|K]; [left; now rewrite PV|]. right. right. split; [reflexivity|]. now exists values.
    + destruct cbs as [|p cbs']; [discriminate G|]. apply IH. destruct D as [[->|D]|(-> & values & J & PV)]; [|now left|].
      * right. split; [exact RQ|]. destruct (groups_all _ _ RI) as (values & J). exists values. split; [exact J|]. now apply groups_spec.
      * destruct (seek_due _ _ groups key c values G eq_refl J) as (d' & g' & S' & _). congruence.
Qed.
Lemma update_complete t user ven reports key c y0 y1 es1 ls es y2 pre m report :
  get key_eqb key (callbacks_of y0) = Some c -> step y0 (LUpdate t user ven reports) = Some (y1, es1) -> runs (fun y => get key_eqb key (callbacks_of y) = Some c) y1 ls es y2 ->
  es1 ++ es = pre ++ [Updated t m (Ok tt)] -> unfinished t pre -> In report reports -> rc_request report = fst key -> In (snd key) (map ri_rid (rc_intervals report)) ->
  In (Deliver c (pairs_of (snd key) (rc_intervals report))) (handed t pre).
Proof.
  intros C E R Q U IR RQ RI.
  destruct (one_update t user ven reports (fun y => get key_eqb key (callbacks_of y) = Some c)
             (fun H request groups rest => In (Deliver c (pairs_of (snd key) (rc_intervals report))) H \/ due key report request groups rest)) with (y0 := y0) (y1 := y1) (es1 := es1) (ls := ls) (es := es) (y2 := y2) as [_ X]; auto.
  - right. now left.
  - intros y H request groups rest CY [J|J] _ d r' g' rest' N; [left; apply in_app_iff; now left|].
    destruct (next_due (callbacks_of y) key c report CY RQ RI rest request groups J) as (d2 & r2 & g2 & rest2 & N2 & K). rewrite N in N2. injection N2 as <- <- <- <-.
    destruct K as [->|K]; [left; apply in_app_iff; right; now left|now right].
  - destruct (X pre m (Ok tt) Q U) as (-> & request & groups & rest & J & K). destruct K as [(_ & OK & y & CY & N)|(H & d & e & HD & OK & UD & [=])]. destruct J as [J|J]; [exact J|].
    destruct (next_due (callbacks_of y) key c report CY RQ RI rest request groups J) as (d2 & r2 & g2 & rest2 & N2 & K). congruence.
Qed.

(** ** What is handed out *)
Definition part_of (reports : list received) (request : string) (groups : list (scalar * list rinterval)) : Prop :=
  groups = [] \/ exists report, In report reports /\ request = rc_request report /\ incl groups (group_intervals (rc_intervals report)).
Definition rightful (cbs : callbacks) (reports : list received) (d : delivery) : Prop :=
  exists report, In report reports /\
  match d with
  | Unclaimed r => r = report /\ cbs = []
  | Deliver c values => exists rid, get key_eqb (rc_request report, rid) cbs = Some c /\ In rid (map ri_rid (rc_intervals report)) /\ values = pairs_of rid (rc_intervals report)
  end.

Lemma seek_rightful cbs reports request groups d g : part_of reports request groups -> seek cbs request groups = Some (d, g) -> rightful cbs reports d /\ part_of reports request g.
Proof.
  intros [->|(report & J & -> & K)] S; [discriminate S|].
  assert (X : exists r values c, In (r, values) groups /\ get key_eqb (rc_request report, r) cbs = Some c /\ d = Deliver c (pairs values) /\ incl g groups).
  { clear K. induction groups as [|[r values] gs IH]; [discriminate S|]. cbn [seek] in S. destruct (get key_eqb (rc_request report, r) cbs) as [c|] eqn:E.
    - injection S as <- <-. exists r, values, c. split; [now left|]. split; [exact E|]. split; [reflexivity|]. apply incl_tl, incl_refl.
    - destruct (IH S) as (r' & v' & c' & A & B & C & D). exists r', v', c'. split; [now right|]. repeat split; auto. now apply incl_tl. }
  destruct X as (r & values & c & A & B & -> & D). split.
  - exists report. split; [exact J|]. exists r. split; [exact B|]. apply groups_spec. now apply K.
  - right. exists report. split; [exact J|]. split; [reflexivity|]. eapply incl_tran; eassumption.
Qed.
Lemma next_rightful cbs reports rest : incl rest reports -> forall request groups d r' g' rest', part_of reports request groups -> next cbs request groups rest = Some (d, r', g', rest') ->
  rightful cbs reports d /\ part_of reports r' g' /\ incl rest' reports.
Proof.
  induction rest as [|report rest IH]; intros IN request groups d r' g' rest' PO N; cbn [next] in N; destruct (seek cbs request groups) as [[d0 g]|] eqn:S.
  - injection N as <- <- <- <-. destruct (seek_rightful _ _ _ _ _ _ PO S). auto.
  - discriminate N.
  - injection N as <- <- <- <-. destruct (seek_rightful _ _ _ _ _ _ PO S). auto.
  - assert (IN' : incl rest reports) by (intros x X; apply IN; now right). destruct cbs as [|p cbs]; [|apply (IH IN' _ _ _ _ _ _) in N; [exact N|]].
    + injection N as <- <- <- <-. split; [exists report; split; [apply IN; now left|auto]|]. split; [now left|exact IN'].
    + right. exists report. split; [apply IN; now left|]. split; [reflexivity|apply incl_refl].
Qed.

Definition known_update (ls : list label) (p : nat * task) : Prop :=
  match snd p with
  | Updating user ven reports d request groups rest => In (LUpdate (fst p) user ven reports) ls /\ incl rest reports /\ part_of reports request groups
  | _ => True
  end.
Definition fair (ls : list label) (cbs : callbacks) (e : effect) : Prop :=
  match e with Given t d => exists user ven reports, In (LUpdate t user ven reports) ls /\ rightful cbs reports d | _ => True end.

Lemma hand_out_known t user ven reports request groups rest y ls y' es : (forall p, In p (tasks y) -> known_update ls p) -> In (LUpdate t user ven reports) ls -> incl rest reports -> part_of reports request groups ->
  hand_out t user ven reports request groups rest y = (y', es) -> (forall p, In p (tasks y') -> known_update ls p) /\ Forall (fair ls (callbacks_of y)) es.
Proof.
  intros T L IN PO E. unfold hand_out in E. destruct (next _ _ _ _) as [[[[d r'] g'] rest']|] eqn:N; injection E as <- <-.
  - destruct (next_rightful _ reports rest IN _ _ _ _ _ _ PO N) as (A & B & C). split; [|constructor; [exists user, ven, reports; auto|constructor]].
    intros p I. apply in_set in I as [->|I]; [cbn; auto|auto].
  - split; [|repeat constructor]. intros p I. apply T. eapply in_del. exact I.
Qed.
Lemma proceed_known t fresh h ven reports i rest results y ls y' es : (forall p, In p (tasks y) -> known_update ls p) ->
  proceed t fresh h ven reports i rest results y = (y', es) -> (forall p, In p (tasks y') -> known_update ls p) /\ Forall (fair ls (callbacks_of y)) es.
Proof.
  intros T E. unfold proceed in E. destruct (advance ven i rest results (st y)) as [s [[i' rest'] results']]. destruct rest'.
  - destruct (conclude fresh ven reports results' s) as [s' r]. injection E as <- <-. split; [|repeat constructor]. intros p I. apply T. eapply in_del. exact I.
  - injection E as <- <-. split; [|constructor]. intros p I. apply in_set in I as [->|I]; [exact Logic.I|auto].
Qed.
Lemma known_more ls l p : known_update ls p -> known_update (ls ++ [l]) p.
Proof. unfold known_update. destruct (snd p); [auto|]. intros (A & B & C). split; [apply in_app_iff; now left|auto]. Qed.
Lemma step_known y l ls y' es : (forall p, In p (tasks y) -> known_update ls p) -> step y l = Some (y', es) ->
  (forall p, In p (tasks y') -> known_update (ls ++ [l]) p) /\ Forall (fair (ls ++ [l]) (callbacks_of y)) es.
Proof.
  intros T0 E. assert (T : forall p, In p (tasks y) -> known_update (ls ++ [l]) p) by (intros p I; now apply known_more, T0).
  assert (D : forall t p, In p (del Nat.eqb t (tasks y)) -> known_update (ls ++ [l]) p) by (intros t p I; apply T; eapply in_del; exact I).
  destruct l as [t fresh h ven reports|t user ven reports|ven pend|t]; cbn [step] in E.
  - destruct (get Nat.eqb t (tasks y)); [discriminate|]. injection E as E. destruct reports; [eapply proceed_known; eassumption|]. injection E as <- <-. split; [exact T|repeat constructor].
  - destruct (get Nat.eqb t (tasks y)); [discriminate|]. injection E as E. eapply hand_out_known; [exact T| | | |exact E]; [apply in_app_iff; right; now left|apply incl_refl|now left].
  - destruct (created_report _ _ _ _) as [c r]. injection E as <- <-. split; [exact T|repeat constructor].
  - destruct (get Nat.eqb t (tasks y)) as [[fresh h ven reports i rest results|user ven reports d request groups rest]|] eqn:G; [| |discriminate].
    + destruct rest as [|report r]; [discriminate|]. injection E as E. destruct (ask h ven i report); [eapply proceed_known; eassumption|]. injection E as <- <-. split; [apply D|repeat constructor].
    + injection E as E. apply (get_in Nat.eqb PeanoNat.Nat.eqb_eq) in G. destruct (T _ G) as (A & B & C). destruct (user d); [eapply hand_out_known; eassumption|]. injection E as <- <-. split; [apply D|repeat constructor].
Qed.
Lemma runs_known P ls es y : runs P start ls es y -> forall p, In p (tasks y) -> known_update ls p.
Proof. induction 1 as [|ls es y1 l es1 y2 _ IH _ E]; [intros p []|]. now apply (step_known y1 l ls y2 es1). Qed.
Lemma fair_more ls l cbs e : fair ls cbs e -> fair (ls ++ [l]) cbs e.
Proof. destruct e; try exact (fun x => x). intros (user & ven & reports & A & B). exists user, ven, reports. split; [apply in_app_iff; now left|exact B]. Qed.
Lemma runs_fair P ls es y es1 e es2 : runs P start ls es y -> es = es1 ++ e :: es2 -> fair ls (report_callbacks (srv (after (served es1)))) e.
Proof.
  intros R. revert es1 e es2. induction R as [|ls es y1 l es' y2 R IH _ E]; intros es1 e es2 Q; [now destruct es1|].
  pose proof (runs_sound _ _ _ _ R) as S. destruct (step_sound y1 es l y2 es' S E) as (_ & _ & L). destruct (step_known y1 l ls y2 es' (runs_known _ _ _ _ R) E) as (_ & F).
  destruct es' as [|e' [|]]; [rewrite app_nil_r in Q; apply fair_more; now apply (IH es1 e es2)| |cbn in L; lia].
  destruct es2 as [|e2 es2'] using rev_ind; [|clear IHes2'].
  - apply app_inj_tail in Q as [-> ->]. apply Forall_inv in F. unfold callbacks_of in F. now rewrite (so_callbacks _ _ S) in F.
  - rewrite app_comm_cons, app_assoc in Q. apply app_inj_tail in Q as [-> _]. apply fair_more. now apply (IH es1 e es2').
Qed.

(** ** Every request that waits can go on *)
Lemma step_exists P ls es y t x : runs P start ls es y -> get Nat.eqb t (tasks y) = Some x -> exists y' es', step y (LResume t) = Some (y', es').
Proof.
  intros R G. cbn [step]. rewrite G. destruct x as [fresh h ven reports i rest results|user ven reports d request groups rest].
  - pose proof (so_tasks _ _ (runs_sound _ _ _ _ R) t _ (get_in Nat.eqb PeanoNat.Nat.eqb_eq _ _ _ G)) as (_ & report & r & -> & _).
    destruct (ask h ven i report); [destruct (proceed _ _ _ _ _ _ _ _ _) as [y' es']|]; eauto.
  - destruct (user d); [destruct (hand_out _ _ _ _ _ _ _ _) as [y' es']|]; eauto.
Qed.
(** and ends after finitely many answers of user code. *)
Definition remaining (x : task) : nat :=
  match x with
  | Registering _ _ _ _ _ rest _ => length rest
  | Updating _ _ _ _ _ groups rest => S (length groups) + list_sum (map (fun report => S (length (group_intervals (rc_intervals report)))) rest)
  end.
Lemma seek_shorter cbs request groups d g : seek cbs request groups = Some (d, g) -> (length g < length groups)%nat.
Proof. induction groups as [|[r v] gs IH]; [discriminate|]. cbn. destruct (get _ _ _); [intros [= _ <-]; lia|]. intros H. apply IH in H. lia. Qed.
Lemma next_shorter cbs rest : forall request groups d r' g' rest', next cbs request groups rest = Some (d, r', g', rest') ->
  (length g' + list_sum (map (fun report => S (length (group_intervals (rc_intervals report)))) rest') < length groups + list_sum (map (fun report => S (length (group_intervals (rc_intervals report)))) rest))%nat.
Proof.
  induction rest as [|report rest IH]; intros request groups d r' g' rest' N; cbn [next] in N; destruct (seek cbs request groups) as [[d0 g]|] eqn:S.
  - injection N as <- <- <- <-. apply seek_shorter in S. cbn. lia.
  - discriminate.
  - injection N as <- <- <- <-. apply seek_shorter in S. lia.
  - unfold list_sum in *. cbn [map fold_right] in *. destruct cbs; [injection N as <- <- <- <-; cbn [length]; lia|]. apply IH in N. lia.
Qed.
Lemma resume_shorter y t x y' es : get Nat.eqb t (tasks y) = Some x -> step y (LResume t) = Some (y', es) -> forall x', get Nat.eqb t (tasks y') = Some x' -> NoDup (map fst (tasks y)) -> (remaining x' < remaining x)%nat.
Proof.
  intros G E x' G' ND. cbn [step] in E. rewrite G in E.
  assert (D : get Nat.eqb t (del Nat.eqb t (tasks y)) = None) by (apply (get_del_same Nat.eqb PeanoNat.Nat.eqb_eq); exact ND).
  destruct x as [fresh h ven reports i rest results|user ven reports d request groups rest].
  - destruct rest as [|report r]; [discriminate|]. injection E as E. destruct (ask h ven i report); [|injection E as <- <-; cbn [tasks] in G'; congruence].
    unfold proceed in E. destruct (advance ven (S i) r _ (st y)) as [s [[i' rest'] results']] eqn:A. apply advance_spec in A as (_ & _ & _ & skipped & -> & _).
    destruct rest'; [destruct (conclude _ _ _ _ _); injection E as <- <-; cbn [tasks] in G'; congruence|]. injection E as <- <-. cbn [tasks] in G'. rewrite (get_set_same Nat.eqb PeanoNat.Nat.eqb_eq) in G'. injection G' as <-.
    cbn. rewrite app_length. cbn. lia.
  - injection E as E. destruct (user d); [|injection E as <- <-; cbn [tasks] in G'; congruence]. unfold hand_out in E. destruct (next _ _ _ _) as [[[[d' r'] g'] rest']|] eqn:N; injection E as <- <-; cbn [tasks] in G'; [|congruence].
    rewrite (get_set_same Nat.eqb PeanoNat.Nat.eqb_eq) in G'. injection G' as <-. apply next_shorter in N. cbn [remaining]. lia.
Qed.

Lemma step_nodup y l y' es : NoDup (map fst (tasks y)) -> step y l = Some (y', es) -> NoDup (map fst (tasks y')).
Proof.
  intros ND E.
  assert (D : forall t, NoDup (map fst (del Nat.eqb t (tasks y)))) by (intros t; apply (nodup_del Nat.eqb); exact ND).
  assert (W : forall t x, NoDup (map fst (set Nat.eqb t x (tasks y)))) by (intros t x; apply (nodup_set Nat.eqb PeanoNat.Nat.eqb_eq); exact ND).
  assert (A : forall t fresh h ven reports i rest results, proceed t fresh h ven reports i rest results y = (y', es) -> NoDup (map fst (tasks y'))).
  { intros t fresh h ven reports i rest results X. unfold proceed in X. destruct (advance _ _ _ _ _) as [s [[i' rest'] results']]. destruct rest'; [destruct (conclude _ _ _ _ _)|]; injection X as <- <-; [apply D|apply W]. }
  assert (B : forall t user ven reports request groups rest, hand_out t user ven reports request groups rest y = (y', es) -> NoDup (map fst (tasks y'))).
  { intros t user ven reports request groups rest X. unfold hand_out in X. destruct (next _ _ _ _) as [[[[? ?] ?] ?]|]; injection X as <- <-; [apply W|apply D]. }
  destruct l as [t fresh h ven reports|t user ven reports|ven pend|t]; cbn [step] in E.
  - destruct (get Nat.eqb t (tasks y)); [discriminate|]. injection E as E. destruct reports; [eapply A; exact E|]. injection E as <- <-. exact ND.
  - destruct (get Nat.eqb t (tasks y)); [discriminate|]. injection E as E. eapply B; exact E.
  - destruct (created_report _ _ _ _) as [c r]. injection E as <- <-. exact ND.
  - destruct (get Nat.eqb t (tasks y)) as [[fresh h ven reports i rest results|user ven reports d request groups rest]|]; [| |discriminate].
    + destruct rest as [|report r]; [discriminate|]. injection E as E. destruct (ask h ven i report); [eapply A; exact E|]. injection E as <- <-. apply D.
    + injection E as E. destruct (user d); [eapply B; exact E|]. injection E as <- <-. apply D.
Qed.
Lemma runs_nodup P ls es y : runs P start ls es y -> NoDup (map fst (tasks y)).
Proof. induction 1 as [|ls es y1 l es1 y2 _ IH _ E]; [constructor|]. eapply step_nodup; eassumption. Qed.

Lemma runs_first (P : system -> Prop) y l es1 y1 ls es y2 : P y -> step y l = Some (y1, es1) -> runs P y1 ls es y2 -> runs P y (l :: ls) (es1 ++ es) y2.
Proof.
  intros H E R. induction R as [|ls es y3 l' es' y4 _ IH H' E'].
  - rewrite app_nil_r. apply (runs_more P y [] [] y l es1 y1); [constructor|exact H|exact E].
  - rewrite app_comm_cons, app_assoc. eapply runs_more; eassumption.
Qed.
Lemma ends ls es y t x : runs any start ls es y -> get Nat.eqb t (tasks y) = Some x ->
  exists n es' y', (0 < n <= S (remaining x))%nat /\ runs any y (repeat (LResume t) n) es' y' /\ get Nat.eqb t (tasks y') = None.
Proof.
  remember (remaining x) as k eqn:K. revert ls es y x K. induction k as [k IH] using (well_founded_induction Wf_nat.lt_wf). intros ls es y x K R G.
  destruct (step_exists _ _ _ _ _ _ R G) as (y1 & es1 & E).
  destruct (get Nat.eqb t (tasks y1)) as [x1|] eqn:G1.
  - pose proof (resume_shorter y t x y1 es1 G E x1 G1 (runs_nodup _ _ _ _ R)) as L. rewrite <- K in L.
    destruct (IH _ L (ls ++ [LResume t]) (es ++ es1) y1 x1 eq_refl) as (n & es' & y' & B & R' & N); [|exact G1|].
    + eapply runs_more; [exact R|exact I|exact E].
    + exists (S n), (es1 ++ es'), y'. split; [lia|]. split; [|exact N]. cbn [repeat]. eapply runs_first; [exact I|exact E|exact R'].
  - exists 1%nat, (es1 ++ []), y1. split; [lia|]. split; [|exact G1]. cbn [repeat]. eapply runs_first; [exact I|exact E|constructor].
Qed.

(** ** The answer to an offer does not depend on what went before *)
Lemma payloads_alike id rds l : forall cbs cbs' acc last, snd (form_payloads id rds l cbs acc last) = snd (form_payloads id rds l cbs' acc last).
Proof.
  induction l as [|e l IH]; intros cbs cbs' acc last; [reflexivity|]. cbn [form_payloads].
  repeat match goal with
  | |- _ => apply IH
  | |- _ => reflexivity
  | |- context [match ?x with _ => _ end] => destruct x
  end.
Qed.
Lemma form_alike fresh reports : forall i answers cbs cbs', snd (form fresh i reports answers cbs) = snd (form fresh i reports answers cbs').
Proof.
  induction reports as [|report reports IH]; intros i [|answer answers] cbs cbs'; try reflexivity. cbn [form]. destruct answer as [l|]; [|apply IH].
  destruct (_ || _)%bool; [apply IH|]. pose proof (payloads_alike (fresh i) (o_descs report) l cbs cbs' [] (0, 0)%Z) as P.
  destruct (form_payloads _ _ l cbs _ _) as [c1 r1], (form_payloads _ _ l cbs' _ _) as [c2 r2]. cbn [snd] in P. subst r2. destruct r1 as [[payloads [s b]]|e]; [|reflexivity].
  specialize (IH (S i) answers c1 c2). destruct (form fresh (S i) reports answers c1), (form fresh (S i) reports answers c2). cbn [snd] in *. now rewrite IH.
Qed.
Lemma collect_alike h ven reports : forall i b b', snd (collect h ven i reports b) = snd (collect h ven i reports b').
Proof.
  induction reports as [|report reports IH]; intros i b b'; [reflexivity|]. cbn [collect]. destruct (ask h ven i report); [|reflexivity].
  specialize (IH (S i) (b ++ [renamed report]) (b' ++ [renamed report])). destruct (collect h ven (S i) reports (b ++ _)), (collect h ven (S i) reports (b' ++ _)). cbn [snd] in *. now rewrite IH.
Qed.
Lemma register_alike fresh h ven reports s s' : snd (handle (Register fresh h ven reports) s) = snd (handle (Register fresh h ven reports) s').
Proof.
  cbn [handle]. destruct reports as [reports|]; [|reflexivity]. unfold register_report.
  pose proof (collect_alike h ven reports 0 (match get scalar_eqb ven (registered (srv s)) with Some l => l | None => [] end) (match get scalar_eqb ven (registered (srv s')) with Some l => l | None => [] end)) as C.
  destruct (collect _ _ _ _ (match get scalar_eqb ven (registered (srv s)) with Some l => l | None => [] end)) as [g1 a1], (collect _ _ _ _ (match get scalar_eqb ven (registered (srv s')) with Some l => l | None => [] end)) as [g2 a2].
  cbn [snd] in C. subst a2. destruct a1 as [a|e]; [|reflexivity].
  pose proof (form_alike fresh reports 0 (validate_report_request_tuples a) (report_callbacks (srv s)) (report_callbacks (srv s'))) as F.
  destruct (form _ _ _ _ (report_callbacks (srv s))) as [c1 r1], (form _ _ _ _ (report_callbacks (srv s'))) as [c2 r2]. cbn [snd] in F. subst r2. now destruct r1.
Qed.
