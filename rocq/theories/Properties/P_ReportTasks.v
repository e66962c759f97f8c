(** C90: messages of the report service that are worked on at the same time. *)
From Coq Require Import ZArith String Ascii List Bool Lia Permutation.
From Verif.Base Require Import Result Dict PyStr ListExtra.
From Verif.Model Require Import Reports ReportService ReportTasks.
From Verif.Spec Require Import ReportSpec ReportServiceSpec ReportTasksSpec.
From Verif.Proofs Require Import ReportProofs ReportServiceProofs ReportTasksProofs.
From Verif.Properties Require Import P_ReportService.
Import ListNotations.
Local Open Scope string_scope.
Local Open Scope list_scope.

(** The full claim: every message has the answer and the effect that it has
    when it is handled in one piece, at some moment of its life.  It fails for
    updates: see [C90_refuted]. *)
Definition C90_full : Prop := forall ls es y pre t m r post, runs any start ls es y -> es = pre ++ Updated t m r :: post -> unfinished t pre ->
  exists hist later, served pre = hist ++ later /\ snd (handle m (after hist)) = Delivered (handed t pre) r.

(** The answer to an offer of reports is the one that it has when nothing else
    goes on, whatever was there before and whatever came in between. *)
Theorem C90_answers_partial : forall ls es y es1 t m r es2 s, runs any start ls es y -> es = es1 ++ Answered t m r :: es2 -> snd (handle m s) = Registered r.
Proof.
  intros ls es y es1 t m r es2 s R E. pose proof (runs_truthful _ _ _ _ _ _ _ R E) as T. cbn [truthful] in T. destruct m as [fresh h ven reports|ven pending|user ven reports].
  - rewrite <- T. apply register_alike.
  - cbn [handle] in T. destruct (created_report _ _ _ _). discriminate T.
  - cbn [handle] in T. destruct (update_report _ _ _). discriminate T.
Qed.

(** At each confirmation the VTN names what the VEN has not confirmed of the
    requests that it was sent last. *)
Theorem C90_checks_partial : forall ls es y es1 v pending r es2 qs, runs any start ls es y -> es = es1 ++ Checked (Created v pending) r :: es2 ->
  Forall answered (served es1) -> wanted (served es1) v qs ->
  exists missing, r = Ok missing /\ picks (fun q => ~ confirmed (served es1 ++ [Created v pending]) v (rq_id q)) qs missing.
Proof.
  intros ls es y es1 v pending r es2 qs R E A W. pose proof (runs_truthful _ _ _ _ _ _ _ R E) as T. cbn [truthful] in T.
  destruct (missing_of_life (served es1) v pending qs A W) as (missing & M & P). exists missing. split; [|exact P]. congruence.
Qed.

(** Data are given to the callback that was given last for their data point
    and request, counting the offers that were answered before; with all the
    values of that report.  A report as a whole goes to on_update_report only
    while nobody has been answered with a request. *)
Theorem C90_given_partial : forall ls es y es1 t d es2, runs any start ls es y -> es = es1 ++ Given t d :: es2 -> Forall answered (served es1) ->
  exists user ven reports report, In (LUpdate t user ven reports) ls /\ In report reports /\
    ((d = Unclaimed report /\ forall key c, ~ given (served es1) key c) \/
     (exists c rid, d = Deliver c (pairs_of rid (rc_intervals report)) /\ given (served es1) (rc_request report, rid) c /\ In rid (map ri_rid (rc_intervals report)))).
Proof.
  intros ls es y es1 t d es2 R E A. destruct (runs_fair _ _ _ _ _ _ _ R E) as (user & ven & reports & L & report & I & F). destruct (callbacks_of_life _ A) as [_ H].
  exists user, ven, reports, report. split; [exact L|]. split; [exact I|]. destruct d as [c values|r].
  - right. destruct F as (rid & G & J & ->). exists c, rid. split; [reflexivity|]. split; [now apply H|exact J].
  - left. destruct F as [-> N]. split; [reflexivity|]. intros key c G. apply H in G. rewrite N in G. discriminate.
Qed.

(** An oadrUpdateReport that is worked on while no offer of reports is
    answered hands out what it would hand out alone, in the same order, and
    ends in the same way: other messages may come in between. *)
Theorem C90_update_quiet_partial : forall ls0 es0 y0 t user ven reports y1 es1 ls es y2 pre m r, runs any start ls0 es0 y0 ->
  step y0 (LUpdate t user ven reports) = Some (y1, es1) -> runs (fun y => callbacks_of y = callbacks_of y0) y1 ls es y2 ->
  es1 ++ es = pre ++ [Updated t m r] -> unfinished t pre ->
  snd (handle (Update user ven reports) (after (served es0))) = Delivered (handed t pre) r.
Proof.
  intros ls0 es0 y0 t user ven reports y1 es1 ls es y2 pre m r R0 E R Q U. cbn [handle].
  destruct (update_quiet t user ven reports (callbacks_of y0) y0 y1 es1 ls es y2 pre m r eq_refl E R Q U) as [_ X].
  rewrite <- (so_callbacks _ _ (runs_sound _ _ _ _ R0)). unfold callbacks_of in X. now rewrite X.
Qed.

(** Whatever else happens: a callback that stays in place while an update is
    worked on gets its data. *)
Theorem C90_update_complete_partial : forall key c y0 t user ven reports y1 es1 ls es y2 pre m report,
  get key_eqb key (callbacks_of y0) = Some c -> step y0 (LUpdate t user ven reports) = Some (y1, es1) ->
  runs (fun y => get key_eqb key (callbacks_of y) = Some c) y1 ls es y2 ->
  es1 ++ es = pre ++ [Updated t m (Ok tt)] -> unfinished t pre ->
  In report reports -> rc_request report = fst key -> In (snd key) (map ri_rid (rc_intervals report)) ->
  In (Deliver c (pairs_of (snd key) (rc_intervals report))) (handed t pre).
Proof. intros. eapply update_complete; eassumption. Qed.

(** Callbacks, requests and confirmations are those of the messages one by
    one, in the order of their answers; when no message is being worked on,
    the reports that a VEN has offered are too, but for their order. *)
Theorem C90_state_partial : forall ls es y, runs any start ls es y ->
  callbacks_of y = report_callbacks (srv (after (served es))) /\ requested (srv (st y)) = requested (srv (after (served es))) /\ created (st y) = created (after (served es)) /\
  (tasks y = [] -> forall ven, Permutation (entered (st y) ven) (entered (after (served es)) ven)).
Proof.
  intros ls es y R. destruct (runs_sound _ _ _ _ R) as [A B C _ D]. split; [exact A|]. split; [exact B|]. split; [exact C|]. intros E ven.
  specialize (D ven). rewrite E in D. cbn in D. now rewrite app_nil_r in D.
Qed.

(** No message waits for another one: when user code answers, each ends. *)
Theorem C90_ends_partial : forall ls es y t x, runs any start ls es y -> get Nat.eqb t (tasks y) = Some x ->
  exists n es' y', runs any y (repeat (LResume t) n) es' y' /\ get Nat.eqb t (tasks y') = None.
Proof. intros ls es y t x R G. destruct (ends ls es y t x R G) as (n & es' & y' & _ & R' & N). exists n, es', y'. auto. Qed.

(** ** Two VENs register at the same time; the one that came first is answered
    last.  An update that began before any answer hands the first report to
    on_update_report and the second one to a callback. *)
Definition ex_ok (d : delivery) : result unit := Ok tt.
Definition ex_sent : list received := [mk_received "q" [mk_rinterval (SStr "a") 1 (SInt 2)]; mk_received "q" [mk_rinterval (SStr "b") 3 (SInt 4)]].
Definition ex_labels : list label :=
  [LRegister 0 (ex_ids "p") (ex_handler 1) (SStr "v") (Some [ex_offer ["a"; "b"]]);
   LRegister 1 (ex_ids "q") (ex_handler 10) (SStr "w") (Some [ex_offer ["a"; "b"]; ex_offer ["c"; "d"]]);
   LUpdate 2 ex_ok (SStr "w") ex_sent; LResume 1; LCreated (SStr "v") []; LResume 1; LResume 2; LResume 0; LCreated (SStr "v") ["p"]; LResume 2].
Fixpoint execute (y : system) (ls : list label) : option (system * list effect) :=
  match ls with
  | [] => Some (y, [])
  | l :: r => match step y l with Some (y, es) => match execute y r with Some (z, es') => Some (z, es ++ es') | None => None end | None => None end
  end.
Lemma execute_runs ls : forall y z es, execute y ls = Some (z, es) -> runs any y ls es z.
Proof.
  induction ls as [|l ls IH]; intros y z es E; cbn [execute] in E.
  - injection E as <- <-. constructor.
  - destruct (step y l) as [[y1 es1]|] eqn:S; [|discriminate]. destruct (execute y1 ls) as [[z' es']|] eqn:X; [|discriminate]. injection E as <- <-. eapply runs_first; [exact I|exact S|now apply IH].
Qed.
Definition ex_requests (p : string) (rids : list string) : request := mk_request p "spec" 10 10 (map (fun r => (SStr r, "Direct Read")) rids).
Definition ex_second : message := Register (ex_ids "q") (ex_handler 10) (SStr "w") (Some [ex_offer ["a"; "b"]; ex_offer ["c"; "d"]]).
Definition ex_effects : list effect :=
  [Given 2 (Unclaimed (mk_received "q" [mk_rinterval (SStr "a") 1 (SInt 2)])); Checked (Created (SStr "v") []) (Raise KeyError);
   Answered 1 ex_second (Ok [ex_requests "q" ["a"; "b"]; ex_requests "qx" ["c"; "d"]]);
   Given 2 (Deliver 11 [(3%Z, SInt 4)]);
   Answered 0 (ex_register "v" "p" 1 ["a"; "b"]) (Ok [ex_requests "p" ["a"; "b"]]);
   Checked (Created (SStr "v") ["p"]) (Ok [])].
Example C90_example : exists y, runs any start ex_labels (ex_effects ++ [Updated 2 (Update ex_ok (SStr "w") ex_sent) (Ok tt)]) y /\ tasks y = [] /\ Forall answered [Created (SStr "v") []; ex_register "v" "p" 1 ["a"; "b"]].
Proof.
  eexists. split; [apply execute_runs; vm_compute; reflexivity|]. split; [vm_compute; reflexivity|].
  constructor; [intros fresh h v reports E; discriminate|]. constructor; [now apply ex_answered|constructor].
Qed.

(** At no moment would this update have been handed out like that. *)
Theorem C90_refuted : ~ C90_full.
Proof.
  intros H. destruct C90_example as (y & R & _). destruct (H _ _ _ ex_effects 2%nat (Update ex_ok (SStr "w") ex_sent) (Ok tt) [] R eq_refl) as (hist & later & E & X).
  - intros m r J. cbn in J. repeat (destruct J as [J|J]; [discriminate J|]). destruct J.
  - assert (K : exists n, (n <= 4)%nat /\ hist = firstn n (served ex_effects)).
    { exists (length hist). rewrite E, firstn_app, PeanoNat.Nat.sub_diag, firstn_all, app_nil_r. split; [|reflexivity]. apply (f_equal (@length _)) in E. rewrite app_length in E. cbn in E. lia. }
    destruct K as (n & L & ->). do 5 (destruct n as [|n]; [vm_compute in X; discriminate X|]). lia.
Qed.

(** An update while nothing is registered: with one message in between. *)
Definition ex_before : list label := [LRegister 0 (ex_ids "q") (ex_handler 1) (SStr "v") (Some [ex_offer ["a"; "b"]]); LResume 0].
Definition ex_report : received := mk_received "q" [mk_rinterval (SStr "a") 1 (SInt 2); mk_rinterval (SStr "b") 1 (SInt 5); mk_rinterval (SStr "a") 2 (SInt 3)].
Example C90_example_update : exists es0 y0 y1 es1 es y2 pre m, runs any start ex_before es0 y0 /\ Forall answered (served es0) /\
  step y0 (LUpdate 0 ex_ok (SStr "v") [ex_report]) = Some (y1, es1) /\
  runs (fun y => callbacks_of y = callbacks_of y0) y1 [LResume 0; LRegister 1 (ex_ids "p") (ex_handler 7) (SStr "w") (Some [ex_offer ["a"; "b"]]); LCreated (SStr "v") []; LResume 0] es y2 /\
  es1 ++ es = pre ++ [Updated 0 m (Ok tt)] /\ unfinished 0 pre /\ handed 0 pre = [Deliver 1 [(1%Z, SInt 2); (2%Z, SInt 3)]; Deliver 2 [(1%Z, SInt 5)]] /\ tasks y2 <> [] /\
  get key_eqb ("q", SStr "a") (callbacks_of y0) = Some 1%nat.
Proof.
  eexists _, _, _, _, _, _, _, _. split; [apply execute_runs; vm_compute; reflexivity|]. split.
  { constructor; [|constructor]. apply (ex_answered "v" "q" 1 "a" "b"). discriminate. }
  split; [vm_compute; reflexivity|]. split.
  { eapply runs_first; [vm_compute; reflexivity|vm_compute; reflexivity|]. eapply runs_first; [vm_compute; reflexivity|vm_compute; reflexivity|].
    eapply runs_first; [vm_compute; reflexivity|vm_compute; reflexivity|]. eapply runs_first; [vm_compute; reflexivity|vm_compute; reflexivity|]. constructor. }
  split; [exact (eq_refl (([_; _; _] : list effect) ++ [_]))|]. split; [|split; [vm_compute; reflexivity|split; [vm_compute; discriminate|vm_compute; reflexivity]]].
  intros m r J. repeat (destruct J as [J|J]; [discriminate J|]). destruct J.
Qed.

Print Assumptions C90_refuted.
Print Assumptions C90_answers_partial.
Print Assumptions C90_checks_partial.
Print Assumptions C90_given_partial.
Print Assumptions C90_update_quiet_partial.
Print Assumptions C90_update_complete_partial.
Print Assumptions C90_state_partial.
Print Assumptions C90_ends_partial.
