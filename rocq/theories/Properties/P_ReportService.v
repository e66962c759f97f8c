(** C72-C74: the VTN's report service over its life. *)
From Coq Require Import ZArith String Ascii List Bool Lia.
From Verif.Base Require Import Result Dict PyStr ListExtra.
From Verif.Model Require Import Reports ReportService.
From Verif.Spec Require Import ReportSpec ReportServiceSpec.
From Verif.Proofs Require Import ReportProofs ReportServiceProofs.
Import ListNotations.
Local Open Scope string_scope.
Local Open Scope list_scope.

(** ** C72: at every confirmation the VTN names exactly the requests of the
    VEN's last registration that the VEN has not confirmed so far. *)
Definition C72_full : Prop := forall hist v pending, Forall answered hist ->
  exists missing, snd (handle (Created v pending) (after hist)) = Missing (Ok missing) /\
    (forall qs, wanted hist v qs -> picks (fun q => ~ confirmed (hist ++ [Created v pending]) v (rq_id q)) qs missing) /\
    ((forall qs, ~ wanted hist v qs) -> missing = []).

(** A VEN from which nothing was requested: KeyError, whatever it confirms. *)
Theorem C72_unasked_partial : forall hist v pending, Forall answered hist -> (forall qs, ~ wanted hist v qs) ->
  snd (handle (Created v pending) (after hist)) = Missing (Raise KeyError).
Proof.
  intros hist v pending A N. cbn [handle]. unfold created_report. cbn [snd].
  destruct (get scalar_eqb v (requested (srv (after hist)))) as [qs|] eqn:E; [|reflexivity]. destruct (N qs). now apply wanted_of_life.
Qed.

Theorem C72_unasked_refuted : ~ C72_full.
Proof.
  intros H. destruct (H [] (SStr "v") [] (Forall_nil _)) as (missing & E & _). vm_compute in E. discriminate.
Qed.

(** Otherwise exact. *)
Theorem C72_missing_partial : forall hist v pending qs, Forall answered hist -> wanted hist v qs ->
  exists missing, snd (handle (Created v pending) (after hist)) = Missing (Ok missing) /\
    picks (fun q => ~ confirmed (hist ++ [Created v pending]) v (rq_id q)) qs missing.
Proof. intros hist v pending qs A W. now apply missing_of_life. Qed.

(** And every answered offer is wanted from then on, until the next one. *)
Theorem C72_wanted_partial : forall hist m v fresh reports dss, Forall answered (hist ++ [m]) -> asks m v fresh reports dss ->
  exists qs, snd (handle m (after hist)) = Registered (Ok qs) /\ expected fresh 0 reports dss qs /\ wanted (hist ++ [m]) v qs /\
    forall qs', wanted (hist ++ [m]) v qs' -> qs' = qs.
Proof.
  intros hist m v fresh reports dss A Q. destruct (register_ok m v fresh reports dss (after hist) Q) as (qs & E & X & _ & G & _).
  exists qs. split; [exact E|]. split; [exact X|]. rewrite <- after_snoc in G. split; [now apply wanted_of_life|].
  intros qs' W. apply wanted_of_life in W; [|exact A]. congruence.
Qed.

(** ** C73: each data point of each report goes, once, with all its values, to
    the callback that was given last for it; nothing else is delivered. *)
Theorem C73_delivery : forall hist user v reports, Forall answered hist -> (exists key c, given hist key c) -> (forall d, user d = Ok tt) ->
  exists dss, snd (handle (Update user v reports) (after hist)) = Delivered (concat dss) (Ok tt) /\ Forall2 (reaches hist) reports dss.
Proof.
  intros hist user v reports A G U. exists (map (deliveries (report_callbacks (srv (after hist)))) reports). cbn [handle]. unfold update_report. rewrite flat_map_concat_map.
  rewrite deliver_all_ok by auto. split; [reflexivity|]. clear U. induction reports as [|r rs IH]; simpl; constructor; [now apply reaches_of_life|assumption].
Qed.

(** Before anything was asked for, whole reports go to on_update_report. *)
Theorem C73_unclaimed : forall hist user v reports, Forall answered hist -> (forall key c, ~ given hist key c) -> (forall d, user d = Ok tt) ->
  snd (handle (Update user v reports) (after hist)) = Delivered (map Unclaimed reports) (Ok tt).
Proof.
  intros hist user v reports A N U. destruct (callbacks_of_life hist A) as [_ H]. cbn [handle].
  assert (E : report_callbacks (srv (after hist)) = []).
  { destruct (report_callbacks (srv (after hist))) as [|[key c] l] eqn:E; [reflexivity|]. destruct (N key c). apply H. simpl.
    assert (X : key_eqb key key = true) by now apply key_eqb_eq. now rewrite X. }
  rewrite E. unfold update_report. assert (F : flat_map (deliveries []) reports = map Unclaimed reports) by (induction reports as [|r rs IH]; simpl; congruence).
  rewrite F, deliver_all_ok by auto. reflexivity.
Qed.

(** A callback gets the data of its data point until another one is given for
    the same data point of the same request, whatever messages come between. *)
Theorem C73_stays : forall hist later key c user v report, Forall answered (hist ++ later) -> given hist key c ->
  (forall m w c', In m later -> ~ gives m w key c') -> (forall d, user d = Ok tt) ->
  rc_request report = fst key -> In (snd key) (map ri_rid (rc_intervals report)) ->
  exists ds, snd (handle (Update user v [report]) (after (hist ++ later))) = Delivered ds (Ok tt) /\
    In (Deliver c (pairs_of (snd key) (rc_intervals report))) ds.
Proof.
  intros hist later key c user v report A G N U R I.
  assert (G' : given (hist ++ later) key c).
  { clear - G N. revert N. induction later as [|m later IH] using rev_ind; intros N; [now rewrite app_nil_r|]. rewrite app_assoc. apply given_before.
    - apply IH. intros m' v c' I. apply N. apply in_app_iff. now left.
    - intros v c'. apply N. apply in_app_iff. right. now left. }
  destruct (C73_delivery (hist ++ later) user v [report] A (ex_intro _ _ (ex_intro _ _ G')) U) as (dss & E & F).
  inversion F as [|? ds ? ? (rids & _ & J & K) F']; subst. inversion F'; subst. exists ds. cbn [concat] in E. rewrite app_nil_r in E. split; [exact E|].
  assert (X : In (snd key) rids) by (apply J; split; [exact I|]; exists c; rewrite R; now destruct key).
  clear - X K G' R A. induction K as [|r d rids ds (c' & G & ->) K IH]; [contradiction|]. destruct X as [->|X]; [|right; auto]. left. f_equal.
  destruct (callbacks_of_life (hist ++ later) A) as [_ H]. apply H in G, G'. rewrite R in G. destruct key; simpl in *. congruence.
Qed.

(** ** C74: data reach a callback only when sent by the VEN that was asked. *)
Definition C74_full : Prop := forall hist user v reports ds r, Forall answered hist ->
  snd (handle (Update user v reports) (after hist)) = Delivered ds r ->
  forall c values, In (Deliver c values) ds -> exists m key, In m hist /\ gives m v key c.

Lemma delivered_from hist user v reports ds r : Forall answered hist -> snd (handle (Update user v reports) (after hist)) = Delivered ds r ->
  forall c values, In (Deliver c values) ds -> exists report rid, In report reports /\ given hist (rc_request report, rid) c /\ values = pairs_of rid (rc_intervals report).
Proof.
  intros A E c values I. destruct (callbacks_of_life hist A) as [_ H]. cbn [handle] in E.
  destruct (deliver_all_prefix user (flat_map (deliveries (report_callbacks (srv (after hist)))) reports)) as (rest & P & _).
  unfold update_report in E. destruct (deliver_all user _) as [ds' r'] eqn:D. cbn [fst snd] in *. injection E as -> ->.
  assert (J : In (Deliver c values) (flat_map (deliveries (report_callbacks (srv (after hist)))) reports)) by (rewrite P; apply in_app_iff; now left).
  apply in_flat_map in J as (report & K & J).
  assert (G : exists key c, given hist key c).
  { destruct (report_callbacks (srv (after hist))) as [|[key c0] l] eqn:Q.
    - simpl in J. destruct J as [J|[]]. discriminate.
    - exists key, c0. apply H. simpl. assert (X : key_eqb key key = true) by now apply key_eqb_eq. now rewrite X. }
  destruct (reaches_of_life hist report A G) as (rids & _ & _ & F). revert J F. generalize (deliveries (report_callbacks (srv (after hist))) report). intros l J F.
  induction F as [|rid d rids l (c' & G' & ->) F IH]; [contradiction|]. destruct J as [J|J]; [|auto]. injection J as <- <-. exists report, rid. auto.
Qed.

(** The sender is not looked at: whoever knows (or guesses) the id of a
    request reaches its callbacks. *)
Definition ex_ids (p : string) (n : nat) : string := p ++ string_of_list_ascii (repeat "x"%char n).
Definition ex_handler (c : nat) : on_register := Compact (fun i j a => Ok (ETuple [Callback (c + j); Delta (a_min a)])).
Definition ex_offer (rids : list string) : offered :=
  mk_offered "METADATA_TELEMETRY_USAGE" "spec" (map (fun r => mk_desc (SStr r) "Direct Read" (SStr "res") (Some ("Voltage", "V", "none")) (Some (10%Z, 60%Z))) rids).
Definition ex_register (v p : string) (c : nat) (rids : list string) : message := Register (ex_ids p) (ex_handler c) (SStr v) (Some [ex_offer rids]).

Lemma ex_ids_injective p a b : ex_ids p a = ex_ids p b -> a = b.
Proof.
  unfold ex_ids. intros E. assert (L : String.length (p ++ string_of_list_ascii (repeat "x"%char a)) = String.length (p ++ string_of_list_ascii (repeat "x"%char b))) by now rewrite E.
  assert (K : forall n, String.length (p ++ string_of_list_ascii (repeat "x"%char n)) = (String.length p + n)%nat).
  { intros n. clear. induction p as [|x p IH]; simpl; [|now rewrite IH]. induction n; simpl; congruence. }
  rewrite !K in L. lia.
Qed.

Definition ex_demands (c : nat) (rids : list string) : list demand := map (fun '(r, j) => mk_demand (SStr r) (c + j) 10 10) (combine rids (seq 0 (length rids))).

Lemma ex_asks_two v p c r1 r2 : r1 <> r2 -> asks (ex_register v p c [r1; r2]) (SStr v) (ex_ids p) [ex_offer [r1; r2]]
  [[mk_demand (SStr r1) (c + 0) 10 10; mk_demand (SStr r2) (c + 1) 10 10]].
Proof.
  intros NE. apply asks_all with (ess := [[ETuple [Plain (SStr r1); Callback (c + 0); Delta 10]; ETuple [Plain (SStr r2); Callback (c + 1); Delta 10]]]).
  - apply ex_ids_injective.
  - constructor; [|constructor]. eapply an_compact with (status := false) (raw := [ETuple [Callback (c + 0); Delta 10]; ETuple [Callback (c + 1); Delta 10]]).
    + reflexivity.
    + reflexivity.
    + intros [|[|j]] rd e D E; simpl in D, E; try discriminate; try (destruct j; discriminate); injection D as <-; injection E as <-;
        exists (mk_args (SStr v) (SStr "res") "Voltage" (Some "V") (Some "none") 10 60); (split; [|reflexivity]);
        (split; [reflexivity|]); (split; [reflexivity|]); (split; [reflexivity|]); exists "V", "none"; repeat split.
    + simpl. apply (wr_tuple (mk_desc (SStr r1) _ _ _ _)). apply (wr_tuple (mk_desc (SStr r2) _ _ _ _)). constructor.
  - reflexivity.
  - constructor; [|constructor]. right. split; [discriminate|]. split.
    + constructor; [constructor|]. constructor; [constructor|]. constructor.
    + constructor; [|constructor; [|constructor]]; eexists; simpl.
      * apply (ds_here (mk_desc (SStr r1) _ _ _ _)).
      * apply ds_later; [simpl; congruence|]. apply (ds_here (mk_desc (SStr r2) _ _ _ _)).
Qed.

Lemma ex_answered v p c r1 r2 : r1 <> r2 -> answered (ex_register v p c [r1; r2]).
Proof. intros NE fresh h w reports E. injection E as <- <- <- <-. eexists. now apply ex_asks_two. Qed.

Theorem C74_sender_refuted : ~ C74_full.
Proof.
  intros H. pose (m := ex_register "honest" "p" 5 ["a"; "b"]).
  assert (A : Forall answered [m]) by (constructor; [now apply ex_answered|constructor]).
  destruct (H [m] (fun _ => Ok tt) (SStr "other") [mk_received "p" [mk_rinterval (SStr "a") 1 (SInt 2)]] _ _ A eq_refl 5%nat [(1%Z, SInt 2)]) as (m' & key & [<-|[]] & G).
  - vm_compute. auto.
  - destruct G as (fr & rs & dss & k & ds & Q & _). inversion Q.
Qed.

(** When each VEN uses only ids of its own requests, and no two VENs were
    given the same id, it holds. *)
Theorem C74_own_ids_partial : forall hist user v reports ds r, Forall answered hist ->
  (forall m m' w w' key key' c c', In m hist -> In m' hist -> gives m w key c -> gives m' w' key' c' -> fst key = fst key' -> w = w') ->
  (forall report, In report reports -> exists m key c, In m hist /\ gives m v key c /\ fst key = rc_request report) ->
  snd (handle (Update user v reports) (after hist)) = Delivered ds r ->
  forall c values, In (Deliver c values) ds -> exists m key, In m hist /\ gives m v key c.
Proof.
  intros hist user v reports ds r A U O E c values I.
  destruct (delivered_from hist user v reports ds r A E c values I) as (report & rid & J & G & _).
  destruct (given_gives _ _ _ G) as (m & w & K & X). destruct (O report J) as (m' & key & c' & K' & X' & Y).
  exists m, (rc_request report, rid). split; [exact K|]. rewrite (U m' m v w key (rc_request report, rid) c' c K' K X' X Y). exact X.
Qed.

(** Every delivery, whoever sent it, has the values of one report for a data
    point of the named request. *)
Theorem C74_named_request_partial : forall hist user v reports ds r, Forall answered hist -> snd (handle (Update user v reports) (after hist)) = Delivered ds r ->
  forall c values, In (Deliver c values) ds -> exists report rid, In report reports /\ given hist (rc_request report, rid) c /\ values = pairs_of rid (rc_intervals report).
Proof. exact delivered_from. Qed.

(** ** A life: two VENs, one of which registers twice. *)
Definition ex_life : list message :=
  [ex_register "v" "p" 1 ["a"; "b"]; ex_register "w" "q" 10 ["a"; "b"]; Created (SStr "v") ["p"]; ex_register "v" "r" 20 ["a"; "b"]].

Lemma ex_life_answered : Forall answered ex_life.
Proof.
  unfold ex_life. constructor; [now apply ex_answered|]. constructor; [now apply ex_answered|]. constructor; [intros fresh h v reports E; discriminate|].
  constructor; [now apply ex_answered|]. constructor.
Qed.

Example C72_example :
  (exists qs, wanted ex_life (SStr "v") qs) /\
  snd (handle (Created (SStr "v") ["z"]) (after ex_life)) = Missing (Ok [mk_request "r" "spec" 10 10 [(SStr "a", "Direct Read"); (SStr "b", "Direct Read")]]) /\
  snd (handle (Created (SStr "v") ["z"; "r"]) (after ex_life)) = Missing (Ok []) /\
  snd (handle (Created (SStr "u") ["z"]) (after ex_life)) = Missing (Raise KeyError).
Proof.
  split.
  - eexists. apply wanted_of_life; [exact ex_life_answered|]. vm_compute. reflexivity.
  - repeat split; vm_compute; reflexivity.
Qed.

Example C73_example :
  (exists key c, given ex_life key c) /\
  snd (handle (Update (fun _ => Ok tt) (SStr "v") [mk_received "p" [mk_rinterval (SStr "b") 1 (SInt 2); mk_rinterval (SStr "a") 1 (SInt 3); mk_rinterval (SStr "b") 2 (SInt 4)];
                                                   mk_received "q" [mk_rinterval (SStr "z") 1 (SInt 2)]; mk_received "r" [mk_rinterval (SStr "a") 1 (SInt 5)]]) (after ex_life))
  = Delivered [Deliver 2 [(1%Z, SInt 2); (2%Z, SInt 4)]; Deliver 1 [(1%Z, SInt 3)]; Deliver 20 [(1%Z, SInt 5)]] (Ok tt).
Proof.
  split; [|vm_compute; reflexivity]. exists ("p", SStr "a"), 1%nat. apply (callbacks_of_life ex_life ex_life_answered). vm_compute. reflexivity.
Qed.

(** Non-vacuity of the hypotheses of C74_own_ids_partial. *)
Example C74_example :
  let hist := [ex_register "v" "p" 1 ["a"; "b"]; ex_register "w" "q" 10 ["a"; "b"]] in
  (forall m m' w w' key key' c c', In m hist -> In m' hist -> gives m w key c -> gives m' w' key' c' -> fst key = fst key' -> w = w') /\
  (exists m key c, In m hist /\ gives m (SStr "v") key c /\ fst key = "p").
Proof.
  split.
  - assert (K : forall v p c w key c', gives (ex_register v p c ["a"; "b"]) w key c' -> w = SStr v /\ exists k, fst key = ex_ids p k).
    { intros v p c w key c' (fr & rs & dss & k & ds & Q & _ & R & _). inversion Q; subst. split; [reflexivity|]. exists k. exact R. }
    intros m m' w w' key key' c c' [<-|[<-|[]]] [<-|[<-|[]]] G G' E; apply K in G as [-> (k & X)]; apply K in G' as [-> (k' & X')]; try reflexivity;
      rewrite X, X' in E; discriminate E.
  - exists (ex_register "v" "p" 1 ["a"; "b"]), ("p", SStr "a"), 1%nat. split; [now left|]. split; [|reflexivity].
    exists (ex_ids "p"), [ex_offer ["a"; "b"]], [[mk_demand (SStr "a") 1 10 10; mk_demand (SStr "b") 2 10 10]], 0%nat, [mk_demand (SStr "a") 1 10 10; mk_demand (SStr "b") 2 10 10].
    split; [now apply (ex_asks_two "v" "p" 1 "a" "b")|]. split; [reflexivity|]. split; [reflexivity|].
    exists [], (mk_demand (SStr "a") 1 10 10), [mk_demand (SStr "b") 2 10 10]. split; [reflexivity|]. split; [reflexivity|]. split; [reflexivity|].
    simpl. intros [E|[]]. discriminate.
Qed.

Print Assumptions C72_unasked_partial.
Print Assumptions C72_unasked_refuted.
Print Assumptions C72_missing_partial.
Print Assumptions C72_wanted_partial.
Print Assumptions C73_delivery.
Print Assumptions C73_unclaimed.
Print Assumptions C73_stays.
Print Assumptions C74_sender_refuted.
Print Assumptions C74_own_ids_partial.
Print Assumptions C74_named_request_partial.
