(** C47-C51: how the VEN deals with events. *)
From Coq Require Import ZArith String List Bool Lia Sorting.Sorted.
From Verif.Base Require Import Result Dict PyStr ListExtra.
From Verif.Model Require Import Objects EventTime Server ClientEvents.
From Verif.Spec Require Import EventSpec ClientEventSpec.
From Verif.Proofs Require Import EventTimeProofs ClientEventProofs.
Import ListNotations.
Local Open Scope string_scope.
Local Open Scope Z_scope.

(** ** Material for the examples *)
Definition here (w : Z) : Z := w.
Definition ex_ev (id : string) (n : Z) (st : status) (start dur : Z) : event :=
  mk_ev (mk_ed (SStr id) n "context" st 0 0 (Some 0) false None)
    [mk_sg [mk_iv (Aware start) dur (SInt 1) None] "SIMPLE" "level" (SStr "s1") None None None None]
    (Some [[("ven_id", SStr "ven1")]]) None (mk_ap (Aware start) dur None None None) "always".
Definition ex_h : handler := fun i c s =>
  ([], if scalar_eqb (ev_id (subject c)) (SStr "bad") then Raise ValueError
       else if scalar_eqb (ev_id (subject c)) (SStr "odd") then Ok (SInt 5) else Ok (SStr "optIn")).
Definition ex_msg (es : list event) : message := mk_msg es (Some (SStr "myVTN")) (SStr "req").
Definition ex_start : vstate := mk_vs [] [].
Definition noon : nat -> Z := fun _ => 50.

(** ** C47 *)
(** Whatever happens, the message is answered: one response per event that is
    due, in order, with an opt type. *)
Theorem C47_answers : forall local h clock m s s' log out, on_event local h clock m s = (s', log, out) ->
  exists dl, those (due local clock) 0 (m_events m) dl /\
    ((dl = [] /\ out = None) \/
     (dl <> [] /\ exists code rs, out = Some (code, rs) /\
        (code = 452 /\ (exists v, m_vtn m = Some (SStr v) /\ lower_case v) \/ code = 200 /\ ~ (exists v, m_vtn m = Some (SStr v) /\ lower_case v)) /\
        Forall2 (fun ie r => exists a, (a = SStr "optIn" \/ a = SStr "optOut") /\ answers m (snd ie) a r) dl rs)).
Proof.
  intros local h clock m s s' log out E. destruct (on_event_dealt _ _ _ _ _ _ _ _ E) as (bad & vs & D & O).
  destruct (responses_spec local clock m (m_events m) 0 vs (dealt_length _ _ _ _ _ _ _ _ D)) as (dl & T & F). exists dl. split; [exact T|].
  assert (F' : Forall2 (fun ie r => exists a, (a = SStr "optIn" \/ a = SStr "optOut") /\ answers m (snd ie) a r) dl (responses local clock (m_request m) 0 (m_events m) vs)).
  { assert (IN : forall ie, In ie dl -> ev_response (snd ie) = "always" /\ nth_error (m_events m) (fst ie) = Some (snd ie)).
    { intros [k x] I. destruct (those_nth _ _ _ _ T _ _ I) as (_ & N & U). rewrite Nat.sub_0_r in N. split; [apply U|exact N]. }
    clear T O E. induction F as [|ie r dl rs (a & N & L & A) F IH]; constructor.
    - exists a. split; [|exact A]. destruct (IN ie (or_introl eq_refl)) as [R N']. rewrite Nat.sub_0_r in N. eapply dealt_opt; eassumption.
    - apply IH. intros x I. apply IN. now right. }
  assert (B : bad = true /\ (exists v, m_vtn m = Some (SStr v) /\ lower_case v) \/ bad = false /\ ~ (exists v, m_vtn m = Some (SStr v) /\ lower_case v)).
  { destruct D as [v V L|V|s' log ws (v & V & L) H|s' log err (v & V & L) H]; [left; eauto|right..]; (split; [reflexivity|]); intros (v' & V' & L'); try (eapply V; eassumption); rewrite V in V'; injection V' as <-; contradiction. }
  destruct (responses local clock (m_request m) 0 (m_events m) vs) as [|r rs].
  - left. inversion F'. split; [reflexivity|exact O].
  - right. split; [intros ->; inversion F'|]. exists (if bad then 452 else 200), (r :: rs). split; [exact O|]. split; [|exact F'].
    destruct B as [[-> B]|[-> B]]; [left|right]; auto.
Qed.

(** The opt types are the handlers' choices ... *)
Definition C47_full : Prop := forall local h clock m s s' log code rs, one_copy s -> proper_vtn m -> all_answered s -> NoDup (map ev_id (m_events m)) ->
  on_event local h clock m s = (s', log, Some (code, rs)) ->
  exists dl, those (due local clock) 0 (m_events m) dl /\
    Forall2 (fun ie r => exists a, answers m (snd ie) a r /\ forall c v, In (fst ie, c, Ok v) log -> chosen v a) dl rs.

(** ... but not if the handler of another event fails. *)
Theorem C47_refuted : ~ C47_full.
Proof.
  intros H. set (m := ex_msg [ex_ev "good" 0 Far 100 10; ex_ev "bad" 0 Far 100 10]).
  destruct (H here ex_h noon m ex_start (fst (fst (on_event here ex_h noon m ex_start))) (snd (fst (on_event here ex_h noon m ex_start))) 200
    [mk_resp 200 (SStr "optOut") (SStr "req") 0 (SStr "good"); mk_resp 200 (SStr "optOut") (SStr "req") 0 (SStr "bad")]) as (dl & T & F).
  - constructor.
  - exists "myVTN". split; [reflexivity|]. intros L. apply islower_iff in L. discriminate.
  - intros r [].
  - vm_compute. repeat constructor; [intros [X|[]]; discriminate|intros []].
  - vm_compute. reflexivity.
  - inversion F as [|[k x] r l l' (a & A & C) F']; subst. assert (k = 0%nat).
    { inversion T; subst; [reflexivity|]. match goal with D : ~ due _ _ _ _ |- _ => elim D end. apply due_iff. vm_compute. reflexivity. }
    subst k. specialize (C (New (ex_ev "good" 0 Far 100 10)) (SStr "optIn") (or_introl eq_refl)). destruct A as (_ & _ & _ & A & _). cbn [rs_opt] in A. subst a.
    destruct C as [[_ C]|[[C _] _]]; [discriminate|now apply C].
Qed.

(** If no handler fails and every remembered event has an answer, they are. *)
Theorem C47_choices_partial : forall local h clock m s s' log code rs, proper_vtn m -> all_answered s -> NoDup (map ev_id (m_events m)) -> no_failure log ->
  on_event local h clock m s = (s', log, Some (code, rs)) ->
  exists dl, those (due local clock) 0 (m_events m) dl /\
    Forall2 (fun ie r => exists v a, chosen v a /\ answers m (snd ie) a r /\
      ((exists c, subject c = snd ie /\ In (fst ie, c, Ok v) log) \/ (forall c, ~ called log (fst ie) c) /\ get scalar_eqb (ev_id (snd ie)) (vs_responded s) = Some v)) dl rs.
Proof.
  intros local h clock m s s' log code rs PV AA N NF E. destruct (on_event_dealt _ _ _ _ _ _ _ _ E) as (bad & vs & D & O).
  destruct PV as (v0 & V0 & L0).
  destruct D as [v V L|V|s' log ws P H|s' log err P H]; [rewrite V0 in V; injection V as <-; contradiction|elim (V _ V0)| |].
  - assert (LE := handle_all_length _ _ _ _ _ _ _ _ H).
    destruct (responses_spec local clock m (m_events m) 0 (checked (m_events m) ws) (checked_length _ _ LE)) as (dl & T & F). exists dl. split; [exact T|].
    assert (IN : forall ie, In ie dl -> ev_response (snd ie) = "always" /\ nth_error (m_events m) (fst ie) = Some (snd ie)).
    { intros [k x] I. destruct (those_nth _ _ _ _ T _ _ I) as (_ & N' & U). rewrite Nat.sub_0_r in N'. split; [apply U|exact N']. }
    assert (RS : rs = responses local clock (m_request m) 0 (m_events m) (checked (m_events m) ws)) by (destruct (responses _ _ _ _ _ _); [discriminate|now injection O as _ ->]).
    rewrite RS. clear T E O RS. apply handle_all_spec in H. induction F as [|[k e] r dl' rs' (a & NA & _ & A) F IH]; constructor.
    + destruct (IN _ (or_introl eq_refl)) as [R NE]. cbn [fst snd] in *. rewrite Nat.sub_0_r in NA.
      destruct (nth_error ws k) as [v|] eqn:V; [|apply nth_error_None in V; assert (X : nth_error (m_events m) k <> None) by congruence; apply nth_error_Some in X; lia].
      destruct (checked_nth _ _ _ _ _ NE V) as (a' & NA' & CH & _). rewrite NA in NA'. injection NA' as <-. exists v, a. split; [now apply CH|]. split; [exact A|].
      destruct (all_values _ _ _ _ _ _ _ _ H N _ _ _ NE V) as [(c & I & C)|[NI G]]; [left|right].
      * exists c. split; [now destruct C; subst|exact I].
      * split; [|exact G]. intros c [y I]. eapply NI. exact I.
    + apply IH. intros x I. apply IN. now right.
  - exfalso. apply handle_all_spec in H. destruct (all_ok _ _ _ _ _ _ _ _ H N) as [vs X]; [|exact NF|discriminate]. intros r I _. now apply AA.
Qed.

Definition ex_seen : vstate := mk_vs [ex_ev "seen" 3 Far 100 10] [(SStr "seen", SStr "optIn")].
Definition ex_three : message := ex_msg [ex_ev "new" 0 Far 100 10; ex_ev "seen" 3 Far 100 10; ex_ev "over" 0 Active 10 20; ex_ev "odd" 1 Far 70 10].
Example C47_example :
  proper_vtn ex_three /\ all_answered ex_seen /\ NoDup (map ev_id (m_events ex_three)) /\
  no_failure (snd (fst (on_event here ex_h noon ex_three ex_seen))) /\
  option_map (fun p => map (fun r => (rs_id r, rs_opt r)) (snd p)) (snd (on_event here ex_h noon ex_three ex_seen)) =
    Some [(SStr "new", SStr "optIn"); (SStr "seen", SStr "optIn"); (SStr "odd", SStr "optOut")].
Proof.
  split; [exists "myVTN"; split; [reflexivity|]; intros L; apply islower_iff in L; discriminate|].
  split; [intros r [<-|[]]; reflexivity|]. split; [vm_compute; repeat constructor; simpl; intuition discriminate|].
  split; [|vm_compute; reflexivity]. vm_compute. intros i c x [H|[H|[H|[]]]]; injection H as <- <- <-; eexists; reflexivity.
Qed.

(** ** C50 *)
Definition C50_full : Prop := forall local h clock m s s' log code rs, one_copy s -> proper_vtn m -> all_answered s -> NoDup (map ev_id (m_events m)) ->
  on_event local h clock m s = (s', log, Some (code, rs)) ->
  forall r c v i, In r rs -> In (i, c, Ok v) log -> ev_id (subject c) = rs_id r -> chosen v (rs_opt r) /\ get scalar_eqb (rs_id r) (vs_responded s') = Some (rs_opt r).

(** The answer for "good" is optOut although its handler said optIn, and the
    VEN remembers optIn. *)
Theorem C50_isolation_refuted : ~ C50_full /\
  exists m, let '(s', log, out) := on_event here ex_h noon m ex_start in
    In (0%nat, New (ex_ev "good" 0 Far 100 10), Ok (SStr "optIn")) log /\ get scalar_eqb (SStr "good") (vs_responded s') = Some (SStr "optIn") /\
    option_map (fun p => map (fun r => (rs_id r, rs_opt r)) (snd p)) out = Some [(SStr "good", SStr "optOut"); (SStr "bad", SStr "optOut")].
Proof.
  set (m := ex_msg [ex_ev "good" 0 Far 100 10; ex_ev "bad" 0 Far 100 10]). split.
  - intros H.
    destruct (H here ex_h noon m ex_start (fst (fst (on_event here ex_h noon m ex_start))) (snd (fst (on_event here ex_h noon m ex_start))) 200
      [mk_resp 200 (SStr "optOut") (SStr "req") 0 (SStr "good"); mk_resp 200 (SStr "optOut") (SStr "req") 0 (SStr "bad")]) with
      (r := mk_resp 200 (SStr "optOut") (SStr "req") 0 (SStr "good")) (c := New (ex_ev "good" 0 Far 100 10)) (v := SStr "optIn") (i := 0%nat) as [C _].
    + constructor.
    + exists "myVTN". split; [reflexivity|]. intros L. apply islower_iff in L. discriminate.
    + intros r [].
    + vm_compute. repeat constructor; [intros [X|[]]; discriminate|intros []].
    + vm_compute. reflexivity.
    + now left.
    + now left.
    + reflexivity.
    + destruct C as [[_ C]|[[C _] _]]; [discriminate|now apply C].
  - exists m. vm_compute. split; [now left|]. split; reflexivity.
Qed.

(** The failing event is opted out of, and so are all others of its message. *)
Theorem C50_all_opt_out_partial : forall local h clock m s s' log code rs, on_event local h clock m s = (s', log, Some (code, rs)) ->
  ~ no_failure log \/ ~ proper_vtn m -> forall r, In r rs -> rs_opt r = SStr "optOut".
Proof.
  intros local h clock m s s' log code rs E W r I. destruct (on_event_dealt _ _ _ _ _ _ _ _ E) as (bad & vs & D & O).
  assert (RS : rs = responses local clock (m_request m) 0 (m_events m) vs) by (destruct (responses _ _ _ _ _ _); [discriminate|now injection O as _ ->]).
  assert (V : forall a, In a vs -> a = SStr "optOut").
  { destruct D as [v V L|V|s' log ws P H|s' log err P H]; try (intros a J; apply in_map_iff in J as (? & <- & _); reflexivity).
    exfalso. destruct W as [W|W]; [|contradiction]. apply W. apply handle_all_spec in H. eapply all_fail_log. exact H. }
  destruct (responses_spec local clock m (m_events m) 0 vs (dealt_length _ _ _ _ _ _ _ _ D)) as (dl & T & F). rewrite <- RS in F. clear - F I V.
  induction F as [|ie r' dl rs (a & N & _ & A) F IH]; [destruct I|]. destruct I as [->|I]; [|auto]. destruct A as (_ & _ & _ & -> & _). apply V. eapply nth_error_In. exact N.
Qed.

Example C50_example : let m := ex_msg [ex_ev "good" 0 Far 100 10; ex_ev "bad" 0 Far 100 10; ex_ev "more" 0 Far 100 10] in
  ~ no_failure (snd (fst (on_event here ex_h noon m ex_start))) /\
  option_map (fun p => map rs_opt (snd p)) (snd (on_event here ex_h noon m ex_start)) = Some [SStr "optOut"; SStr "optOut"; SStr "optOut"].
Proof.
  split; [|vm_compute; reflexivity]. intros F. destruct (F 1%nat (New (ex_ev "bad" 0 Far 100 10)) (Raise ValueError)) as [v V]; [|discriminate]. vm_compute. right. now left.
Qed.

(** ** C49 *)
(** One copy per id, in every history. *)
Theorem C49_one_copy : forall local ops, one_copy (run local ops (mk_vs [] [])).
Proof. intros local ops. apply run_one_copy. constructor. Qed.

(** A single event, with any handler (tasks may run while it is awaited):
    which handler is called, if any. *)
Theorem C49_one_event : forall local h i e s s' log x, handle_one local h i e s = (s', log, x) -> one_copy s ->
  (known (vs_received s) e None /\ log = []) \/
  exists c, known (vs_received s) e (Some c) /\ log = [(i, c, x)] /\ (forall c', known (vs_received s) e (Some c') -> c' = c) /\ subject c = e.
Proof.
  intros local h i e s s' log x E OC. apply handle_one_spec in E. destruct E as [q w s' I' E M G' R|q I' E M G'|c l cs x s1 K L H S1 s' X].
  - left. split; [eapply k_same; eassumption|reflexivity].
  - left. split; [eapply k_same; eassumption|reflexivity].
  - right. exists c. split; [exact K|]. split; [reflexivity|]. split; [|now inversion K]. intros c' K'. pose proof (known_fun _ _ _ _ OC K K'). congruence.
Qed.

(** A message: [n] is the number of events got to, all of them unless one
    raises.  Which handlers are called is known beforehand; each is called
    once, in the order of the message; and what is remembered afterwards are
    the events asked about and those no handler was called for. *)
Theorem C49_dispatch : forall local h clock m s s' log out, prompt h -> one_copy s -> NoDup (map ev_id (m_events m)) -> proper_vtn m ->
  on_event local h clock m s = (s', log, out) -> exists n,
  (n = length (m_events m) \/
   exists k e, n = S k /\ nth_error (m_events m) k = Some e /\
     ((exists c err, In (k, c, Raise err) log) \/ known (vs_received s) e None /\ get scalar_eqb (ev_id e) (vs_responded s) = None)) /\
  (forall i e c, nth_error (m_events m) i = Some e -> (i < n)%nat -> (called log i c <-> known (vs_received s) e (Some c))) /\
  (forall i c, called log i c -> (i < n)%nat) /\
  StronglySorted lt (map (fun l => fst (fst l)) log) /\
  (forall r, In r (vs_received s') <-> (In r (vs_received s) /\ forall i c, called log i c -> ev_id (subject c) <> ev_id r) \/ asked_about log r).
Proof.
  intros local h clock m s s' log out P OC N (v0 & V0 & L0) E. destruct (on_event_dealt _ _ _ _ _ _ _ _ E) as (bad & vs & D & _).
  assert (A : exists x, all local h 0 (m_events m) s s' log x).
  { destruct D as [v V L|V|s' log ws Q H|s' log err Q H]; [rewrite V0 in V; injection V as <-; contradiction|elim (V _ V0)|apply handle_all_spec in H; eauto..]. }
  destruct A as [x A]. destruct (all_prompt _ _ _ _ _ _ _ _ P A OC N) as (n & G & K & B & S & R). exists n.
  split; [|split; [intros i e c E' L; exact (K i e E' L c)|split; [intros i c C; apply (B i c C)|split; [exact S|exact R]]]].
  destruct G as [[_ G]|(k & e & err & G1 & _ & G2 & G3)]; [now left|right]. exists k, e. split; [exact G1|]. split; [exact G2|]. destruct G3 as [[c G3]|G3]; [left; eauto|now right].
Qed.

Definition ex_two : message := ex_msg [ex_ev "new" 0 Far 100 10; ex_ev "seen" 4 Far 200 10; ex_ev "seen2" 1 Far 200 10].
Definition ex_mem : vstate := mk_vs [ex_ev "seen" 3 Far 100 10; ex_ev "seen2" 1 Far 200 10; ex_ev "idle" 0 Far 300 1] [(SStr "seen", SStr "optIn"); (SStr "seen2", SStr "optOut")].
Example C49_example :
  prompt ex_h /\ one_copy ex_mem /\ NoDup (map ev_id (m_events ex_two)) /\
  let '(s', log, out) := on_event here ex_h noon ex_two ex_mem in
  map (fun l => snd (fst l)) log = [New (ex_ev "new" 0 Far 100 10); Update (ex_ev "seen" 4 Far 200 10)] /\
  map (fun e => (ev_id e, ev_mod e)) (vs_received s') = [(SStr "seen2", 1); (SStr "idle", 0); (SStr "new", 0); (SStr "seen", 4)].
Proof.
  split; [intros i c s; reflexivity|]. split; [vm_compute; repeat constructor; simpl; intuition discriminate|].
  split; [vm_compute; repeat constructor; simpl; intuition discriminate|]. vm_compute. split; reflexivity.
Qed.

(** A VEN without a handler of its own for updates repeats the answer that it
    gave to the event before. *)
Theorem C49_default_update : forall local h clock m s s' log out, (forall i e s, h i (Update e) s = default_update e s) -> NoDup (map ev_id (m_events m)) ->
  on_event local h clock m s = (s', log, out) ->
  forall i e x v, In (i, Update e, x) log -> get scalar_eqb (ev_id e) (vs_responded s) = Some v -> x = Ok v.
Proof.
  intros local h clock m s s' log out D ND E. destruct (on_event_dealt _ _ _ _ _ _ _ _ E) as (bad & vs & DE & _).
  assert (A : log = [] \/ exists x, all local h 0 (m_events m) s s' log x).
  { destruct DE as [v V L|V|s' log ws Q H|s' log err Q H]; [now left|now left|right; apply handle_all_spec in H; eauto..]. }
  clear E DE. destruct A as [->|[y A]]; [intros ? ? ? ? []|]. induction A as [j0 s|j e0 es s s' log err O|j e0 es s s1 s' l1 l2 w z O A IH]; intros i e x v I G; [destruct I| |].
  - inversion O; subst; [destruct I|]. destruct I as [I|[]]. injection I as _ -> _. match goal with H : h _ (Update e) _ = _, K : known _ _ (Some (Update e)) |- _ => rewrite D in H; inversion K; subst end.
    match goal with H : default_update _ _ = _ |- _ => unfold default_update, set_received in H; cbn [vs_responded] in H; rewrite G in H; discriminate H end.
  - inversion ND as [|? ? NI ND']; subst. apply in_app_iff in I as [I|I].
    + clear A IH. inversion O; subst; [destruct I|]. destruct I as [I|[]]. injection I as _ -> <-. match goal with H : h _ (Update e) _ = _, K : known _ _ (Some (Update e)) |- _ => rewrite D in H; inversion K; subst end.
      match goal with H : default_update _ _ = _ |- _ => unfold default_update, set_received in H; cbn [vs_responded] in H; rewrite G in H; injection H as _ <-; reflexivity end.
    + apply (IH ND' i e x v I). rewrite <- G. eapply one_responded_other; [exact O|]. intros EQ. apply NI. rewrite <- EQ.
      assert (S : In (subject (Update e)) es) by (eapply all_called_subject; [exact A | exists x; exact I]). now apply (in_map ev_id) in S.
Qed.
Definition ex_own : handler := fun i c s => match c with New e => ([], Ok (SStr "optIn")) | Update e => default_update e s end.
Example C49_example_default :
  (forall i e s, ex_own i (Update e) s = default_update e s) /\ map (fun l => (snd (fst l), snd l)) (snd (fst (on_event here ex_own noon ex_two ex_mem))) = [(New (ex_ev "new" 0 Far 100 10), Ok (SStr "optIn")); (Update (ex_ev "seen" 4 Far 200 10), Ok (SStr "optIn"))].
Proof. split; [reflexivity|]. vm_compute. reflexivity. Qed.

(** ** C48 *)
(** Receiving the same event again. *)
Definition C48_full : Prop := forall local h clock clock' m s s1 log1 code1 rs1 s2 log2 out2,
  (exists ops, s = run local ops (mk_vs [] [])) -> proper_vtn m -> NoDup (map ev_id (m_events m)) ->
  on_event local h clock m s = (s1, log1, Some (code1, rs1)) -> no_failure log1 ->
  on_event local h clock' m s1 = (s2, log2, out2) ->
  log2 = [] /\ forall code2 rs2 r1 r2, out2 = Some (code2, rs2) -> In r1 rs1 -> In r2 rs2 -> rs_id r1 = rs_id r2 -> rs_opt r1 = rs_opt r2.

(** A cancelled event that is repeated is opted out of. *)
Theorem C48_same_answer_refuted : ~ C48_full.
Proof.
  intros H. set (e0 := ex_ev "a" 0 Far 100 10). set (e1 := ex_ev "a" 1 Cancelled 100 10).
  set (s := run here [OMessage ex_h noon (ex_msg [e0])] (mk_vs [] [])). set (r1 := on_event here ex_h noon (ex_msg [e1]) s). set (s1 := fst (fst r1)).
  set (r2 := on_event here ex_h noon (ex_msg [e1]) s1).
  destruct (H here ex_h noon noon (ex_msg [e1]) s s1 (snd (fst r1)) 200 [mk_resp 200 (SStr "optIn") (SStr "req") 1 (SStr "a")] (fst (fst r2)) (snd (fst r2)) (snd r2)) as [_ C].
  - eexists. reflexivity.
  - exists "myVTN". split; [reflexivity|]. intros L. apply islower_iff in L. discriminate.
  - vm_compute. repeat constructor. intros [].
  - vm_compute. reflexivity.
  - vm_compute. intros i c x [X|[]]. injection X as <- <- <-. eexists. reflexivity.
  - vm_compute. reflexivity.
  - specialize (C 200 [mk_resp 200 (SStr "optOut") (SStr "req") 1 (SStr "a")] (mk_resp 200 (SStr "optIn") (SStr "req") 1 (SStr "a")) (mk_resp 200 (SStr "optOut") (SStr "req") 1 (SStr "a"))).
    assert (X : SStr "optIn" = SStr "optOut"); [|discriminate]. apply C; [vm_compute; reflexivity|now left|now left|reflexivity].
Qed.

(** An event that is not cancelled or completed: asked about in one message,
    then any number of other messages and periodic tasks while it is not over
    and not changed, then received again.  No handler is called for it, and,
    unless the handling of another event fails, the answer is the same. *)
Theorem C48_same_answer_partial : forall local ops0 h clock m s1 log1 out1 i e c v ops h2 clock2 m2 s2 log2 out2 j e2,
  (* the first message *)
  NoDup (map ev_id (m_events m)) -> proper_vtn m ->
  on_event local h clock m (run local ops0 (mk_vs [] [])) = (s1, log1, out1) ->
  all_answered (run local ops0 (mk_vs [] [])) -> no_failure log1 ->
  nth_error (m_events m) i = Some e -> In (i, c, Ok v) log1 -> ev_status e <> Completed -> ev_status e <> Cancelled ->
  (forall i c s, Forall (before_end local (ev_period e)) (fst (h i c s))) ->
  (* in between *)
  Forall (unchanged local (ev_id e) (ev_mod e) (ev_period e)) ops ->
  (* the second message *)
  unchanged local (ev_id e) (ev_mod e) (ev_period e) (OMessage h2 clock2 m2) -> 
  nth_error (m_events m2) j = Some e2 -> ev_id e2 = ev_id e ->
  on_event local h2 clock2 m2 (run local ops s1) = (s2, log2, out2) ->
  (forall c, ~ called log2 j c) /\ get scalar_eqb (ev_id e) (vs_responded s2) = Some v /\
  forall code rs r, out2 = Some (code, rs) -> In r rs -> rs_id r = ev_id e ->
    chosen v (rs_opt r) \/
    (forall r', In r' rs -> rs_opt r' = SStr "optOut") /\
      ~ (proper_vtn m2 /\ no_failure log2 /\ all_answered (run local ops s1) /\ NoDup (map ev_id (m_events m2))).
Proof.
  intros local ops0 h clock m s1 log1 out1 i e c v ops h2 clock2 m2 s2 log2 out2 j e2 N (v0 & V0 & L0) E AA NF NE IL ST1 ST2 Q F U NJ EJ E2.
  set (s0 := run local ops0 (mk_vs [] [])) in *. assert (OC0 : one_copy s0) by apply C49_one_copy.
  assert (T1 : settled (ev_id e) (ev_mod e) (ev_period e) v s1).
  { destruct (on_event_dealt _ _ _ _ _ _ _ _ E) as (bad & vs & D & _).
    destruct D as [w V L|V|s1 log1 ws P H|s1 log1 err P H]; [rewrite V0 in V; injection V as <-; contradiction|elim (V _ V0)| |]; apply handle_all_spec in H.
    - eapply (all_settles _ _ _ _ _ _ _ _ H OC0 N i); [exact NE|exact IL|exact Q|]. intros [X|X]; contradiction.
    - exfalso. destruct (all_ok _ _ _ _ _ _ _ _ H N) as [vs X]; [|exact NF|discriminate]. intros r I _. now apply AA. }
  assert (OC1 : one_copy s1) by (pose proof (on_event_one_copy local h clock m s0 OC0) as X; now rewrite E in X).
  pose proof (run_settled local ops _ _ _ _ F s1 OC1 T1) as T2. pose proof (run_one_copy local ops s1 OC1) as OC2.
  destruct U as [U1 U2]. fold (quiet local (ev_period e) h2) in U2.
  assert (T3 : settled (ev_id e) (ev_mod e) (ev_period e) v s2) by (eapply on_event_settled; [exact E2|exact OC2|exact U2|exact U1|exact T2]).
  destruct (on_event_dealt _ _ _ _ _ _ _ _ E2) as (bad & vs & D & O).
  assert (OUTS : (forall a, In a vs -> a = SStr "optOut") -> forall code rs r, out2 = Some (code, rs) -> In r rs -> rs_opt r = SStr "optOut").
  { intros VS code rs r O2 I. destruct (responses_spec local clock2 m2 (m_events m2) 0 vs (dealt_length _ _ _ _ _ _ _ _ D)) as (dl & T & FF).
    assert (RS : rs = responses local clock2 (m_request m2) 0 (m_events m2) vs) by (rewrite O in O2; destruct (responses _ _ _ _ _ _); [discriminate|now injection O2 as _ ->]).
    rewrite <- RS in FF. clear - FF I VS. induction FF as [|ie r' dl rs (a & NN & _ & A) FF IH]; [destruct I|]. destruct I as [->|I]; [|auto].
    destruct A as (_ & _ & _ & -> & _). apply VS. eapply nth_error_In. exact NN. }
  assert (OO : forall a, In a (map (fun _ : event => opt_out) (m_events m2)) -> a = SStr "optOut") by (intros a J; apply in_map_iff in J as (? & <- & _); reflexivity).
  split; [|split; [apply T3|]].
  - destruct D as [w V L|V|s2 log2 ws P H|s2 log2 err P H]; try (intros c' [y []]); apply handle_all_spec in H; intros c' [y I];
      destruct (all_settled _ _ _ _ _ _ _ _ _ _ _ _ H OC2 U2 U1 T2) as [_ W]; destruct (W j e2 NJ EJ) as [W1 _]; exact (W1 c' y I).
  - intros code rs r O2 I R. destruct D as [w V L|V|s2 log2 ws P H|s2 log2 err P H];
      try (right; split; [intros r' I'; eapply OUTS; eassumption|]).
    + intros ((w' & V' & L') & _). rewrite V in V'. injection V' as <-. contradiction.
    + intros ((w' & V' & L') & _). elim (V _ V').
    + left. pose proof (handle_all_length _ _ _ _ _ _ _ _ H) as LE. apply handle_all_spec in H.
      destruct (all_settled _ _ _ _ _ _ _ _ _ _ _ _ H OC2 U2 U1 T2) as [_ W].
      destruct (responses_spec local clock2 m2 (m_events m2) 0 _ (checked_length _ _ LE)) as (dl & T & FF).
      assert (RS : rs = responses local clock2 (m_request m2) 0 (m_events m2) (checked (m_events m2) ws)) by (rewrite O in O2; destruct (responses _ _ _ _ _ _); [discriminate|now injection O2 as _ ->]).
      rewrite <- RS in FF.
      assert (IN : forall ie, In ie dl -> ev_response (snd ie) = "always" /\ nth_error (m_events m2) (fst ie) = Some (snd ie)).
      { intros [k x] J. destruct (those_nth _ _ _ _ T _ _ J) as (_ & N' & U). rewrite Nat.sub_0_r in N'. split; [apply U|exact N']. }
      clear - FF I R W IN. induction FF as [|[k x] r' dl rs (a & NA & _ & A) FF IH]; [destruct I|]. destruct I as [->|I]; [|apply IH; [exact I|intros y J; apply IN; now right]].
      destruct (IN _ (or_introl eq_refl)) as [RA NX]. cbn [fst snd] in *. rewrite Nat.sub_0_r in NA. destruct A as (A1 & _ & _ & -> & _).
      destruct (W k x NX ltac:(congruence)) as [_ W2]. specialize (W2 ws eq_refl). destruct (checked_nth _ _ _ _ _ NX W2) as (a' & NA' & CH & _).
      rewrite NA in NA'. injection NA' as <-. now apply CH.
    + intros (_ & NF2 & AA2 & ND2). apply handle_all_spec in H. destruct (all_ok _ _ _ _ _ _ _ _ H ND2) as [vs X]; [|exact NF2|discriminate]. intros r0 I0 _. now apply AA2.
Qed.

(** A message about "a" and "b"; cleaning up; then "a" again together with a
    new event. *)
Definition ex_c : chore := Cleanup noon.
Example C48_example :
  let m := ex_msg [ex_ev "a" 0 Far 100 10; ex_ev "b" 0 Far 100 10] in
  let '(s1, log1, out1) := on_event here ex_h noon m ex_start in
  In (0%nat, New (ex_ev "a" 0 Far 100 10), Ok (SStr "optIn")) log1 /\
  Forall (unchanged here (SStr "a") 0 (mk_ap (Aware 100) 10 None None None)) [OChore ex_c] /\
  let m2 := ex_msg [ex_ev "c" 0 Far 100 10; ex_ev "a" 0 Far 100 10] in
  unchanged here (SStr "a") 0 (mk_ap (Aware 100) 10 None None None) (OMessage ex_h noon m2) /\
  let '(s2, log2, out2) := on_event here ex_h noon m2 (run here [OChore ex_c] s1) in
  map (fun l => fst (fst l)) log2 = [0%nat] /\ option_map (fun p => map rs_opt (snd p)) out2 = Some [SStr "optIn"; SStr "optIn"].
Proof.
  assert (B : before_end here (mk_ap (Aware 100) 10 None None None) ex_c).
  { intros i (s & S & I). cbn in S. subst s. inversion I. cbn in *. unfold noon in *. lia. }
  cbv zeta. destruct (on_event here ex_h noon (ex_msg [ex_ev "a" 0 Far 100 10; ex_ev "b" 0 Far 100 10]) ex_start) as [[s1 log1] out1] eqn:E. vm_compute in E. injection E as <- <- <-.
  split; [left; reflexivity|]. split; [constructor; [exact B|constructor]|]. split.
  - split; [|intros i c s; constructor]. intros e [<-|[<-|[]]] D; [discriminate|]. repeat split; discriminate.
  - vm_compute. split; reflexivity.
Qed.

(** ** C51 *)
Theorem C51_cleanup : forall local clock l, exists r,
  those (fun i e => ~ (ev_status e = Cancelled \/ completed_at local (clock i) (ev_period e))) 0 l r /\ event_cleanup local clock l = map snd r.
Proof.
  intros local clock l. rewrite event_cleanup_keep. apply keep_those. intros i e. rewrite negb_true_iff, <- not_true_iff_false, irrelevant_iff. reflexivity.
Qed.

Theorem C51_status_log : forall local clock l, length (event_status_log local clock l) = length l /\
  forall i e, nth_error l i = Some e -> exists e', nth_error (event_status_log local clock l) i = Some e' /\
    (ev_status e = Cancelled /\ e' = e \/
     ev_status e <> Cancelled /\ exists t st, starts_at local (ap_start (ev_period e)) t /\
       implied t (ap_duration (ev_period e)) (ap_ramp_up (ev_period e)) (clock i) st /\ e' = set_status st e).
Proof.
  intros local clock l. split.
  - rewrite <- (map_length ev_id (event_status_log local clock l)). unfold event_status_log. rewrite status_log_ids. apply map_length.
  - intros i e N. unfold event_status_log. rewrite status_log_nth, N. simpl. eexists. split; [reflexivity|]. unfold logged_status.
    destruct (status_eqb (ev_status e) Cancelled) eqn:C; [left; split; [now apply status_eqb_iff|reflexivity]|right].
    split; [intros X; apply (status_eqb_iff _ Cancelled) in X; rewrite X in C; discriminate|].
    exists (aware_start local (ev_period e)), (fst (determine_event_status local (clock i) (ev_period e))). split; [now apply starts_aware|]. split; [apply determine_implied|].
    cbv zeta. destruct (status_eqb (fst (determine_event_status local (clock i) (ev_period e))) (ev_status e)) eqn:D; [|reflexivity]. apply status_eqb_iff in D. rewrite D. now destruct e as [[] ? ? ? ? ?].
Qed.

Example C51_example :
  let l := [ex_ev "done" 0 Far 10 20; ex_ev "on" 0 Far 40 20; ex_ev "off" 0 Cancelled 100 10; ex_ev "gone" 0 Active 10 5; ex_ev "later" 0 Far 60 10] in
  map ev_id (event_cleanup here noon l) = [SStr "on"; SStr "later"] /\
  map ev_status (event_status_log here noon l) = [Completed; Active; Cancelled; Completed; Far].
Proof. vm_compute. split; reflexivity. Qed.

Print Assumptions C47_answers.
Print Assumptions C47_refuted.
Print Assumptions C47_choices_partial.
Print Assumptions C48_same_answer_refuted.
Print Assumptions C48_same_answer_partial.
Print Assumptions C49_one_copy.
Print Assumptions C49_one_event.
Print Assumptions C49_dispatch.
Print Assumptions C49_default_update.
Print Assumptions C50_isolation_refuted.
Print Assumptions C50_all_opt_out_partial.
Print Assumptions C51_cleanup.
Print Assumptions C51_status_log.
