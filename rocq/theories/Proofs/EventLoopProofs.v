(** Proofs for C77. *)
From Coq Require Import ZArith String List Bool Lia Sorting.Permutation.
From Verif.Base Require Import Result Dict PyStr ListExtra.
From Verif.Model Require Import Objects EventTime EventService.
From Verif.Model Require ClientEvents.
From Verif.Spec Require Import EventSpec QueueSpec EventLoopSpec.
From Verif.Spec Require ClientEventSpec.
From Verif.Proofs Require Import EventTimeProofs QueueProofs QueueHistory QueueLaws QueueAnswers.
Import ListNotations.
Local Open Scope Z_scope.

Definition given (es : list effect) : list nat := flat_map (fun e => match e with EResult f _ _ _ => [f] | _ => [] end) es.

Lemma reports_ext v k k' o rs es : reports v k o rs es -> forall o', (forall r, In r rs -> k' (rs_id r) = k (rs_id r)) ->
  (forall r f, In r rs -> k (rs_id r) = Some (CFut f) -> In f o <-> In f o') -> reports v k' o' rs es.
Proof.
  intros R. induction R as [o|o r rs es K R IH|o r rs es n K R IH|o r rs es f K N R IH|o r rs es f K N R IH]; intros o' HK HO.
  - constructor.
  - apply rp_none; [rewrite HK by (now left); exact K|]. apply IH; intros; [apply HK; now right|]. eapply HO; [right; eassumption|assumption].
  - apply rp_fun; [rewrite HK by (now left); exact K|]. apply IH; intros; [apply HK; now right|]. eapply HO; [right; eassumption|assumption].
  - apply rp_fut; [rewrite HK by (now left); exact K|intros I; apply N; eapply HO; [now left|exact K|exact I]|].
    apply IH; [intros; apply HK; now right|]. intros r' g I' K'. cbn [In]. rewrite (HO r' g (or_intror I') K'). reflexivity.
  - eapply rp_over; [rewrite HK by (now left); exact K|eapply HO; [now left|exact K|exact N]|].
    apply IH; intros; [apply HK; now right|]. eapply HO; [right; eassumption|assumption].
Qed.

Lemma reports_app v k o a ea : reports v k o a ea -> forall b eb, reports v k (given ea ++ o) b eb -> reports v k o (a ++ b) (ea ++ eb).
Proof.
  intros R. induction R as [o|o r rs es K R IH|o r rs es n K R IH|o r rs es f K N R IH|o r rs es f K N R IH]; intros b eb B; cbn [app].
  - exact B.
  - apply rp_none; auto.
  - apply rp_fun; auto.
  - apply rp_fut; [exact K|exact N|]. apply IH. eapply reports_ext; [exact B|reflexivity|].
    intros r' g _ _. cbn [given flat_map app]. fold (given es). cbn [In]. rewrite !in_app_iff. cbn [In]. tauto.
  - eapply rp_over; [exact K|exact N|]. auto.
Qed.

(** Every response is about a queued event. *)
Definition findable (s : state) (v : scalar) (rs : list response) : Prop :=
  NoDup (map rs_id rs) /\ forall r, In r rs -> exists x, In x (queue s v) /\ ev_id (heap s x) = rs_id r /\ SInt (ev_mod (heap s x)) = rs_mod r.

Lemma pop_id_keep h id q x : In x q -> ev_id (h x) <> id -> In x (pop_id h id q).
Proof.
  intros I N. destruct (in_dec Nat.eq_dec x (pop_id h id q)) as [J|J]; [exact J|]. exfalso. apply N. eapply pop_id_removed; eassumption.
Qed.

Lemma created_part t v rs : forall s s' es, created_event t v rs s = (s', es) -> findable s v rs ->
  (exists es', es = (es' ++ [EAck t v])%list /\ reports v (known_callback s) (done s) rs es' /\ tasks s' = del Nat.eqb t (tasks s)) \/
  (exists past rest, rs = (past ++ rest)%list /\ reports v (known_callback s) (done s) past es /\ tasks s' = set Nat.eqb t (TCreated v rest) (tasks s) /\
     findable s' v rest /\ (forall r, In r rest -> known_callback s' (rs_id r) = known_callback s (rs_id r)) /\
     forall f, In f (done s') <-> In f (given es ++ done s)).
Proof.
  induction rs as [|r rest IH]; intros s s' es H (ND & FD); cbn [created_event] in H.
  - apply pair_equal_spec in H as [<- <-]. left. exists []. split; [reflexivity|]. split; [constructor|reflexivity].
  - destruct (FD r (or_introl eq_refl)) as (x & IX & E1 & E2).
    destruct (get scalar_eqb v (queues s)) as [q|] eqn:Q; [|rewrite (queue_none _ _ Q) in IX; contradiction].
    pose proof (queue_get _ _ _ Q) as QV. rewrite QV in IX.
    destruct (find_response (heap s) q r) as [y|] eqn:F; [|exfalso; exact (proj1 (find_response_none _ _ _) F x IX E1 E2)].
    change (if status_eqb (ev_status (heap s y)) Cancelled then set_queue v (pop_id (heap s) (rs_id r) q) s else s) with (after_response s v r q y) in H.
    pose proof (after_frame s v r q y) as AF. cbv zeta in AF.
    cbn [map] in ND. apply NoDup_cons_iff in ND as [NI ND'].
    assert (FD1 : findable (after_response s v r q y) v rest).
    { split; [exact ND'|]. intros r' I'. destruct (FD r' (or_intror I')) as (x' & IX' & E1' & E2'). exists x'. destruct AF as (-> & _).
      split; [|auto]. unfold after_response. destruct (status_eqb _ _); [|exact IX']. rewrite queue_set_same. rewrite QV in IX'. apply pop_id_keep; [exact IX'|].
      rewrite E1'. intros K. apply NI. rewrite <- K. now apply in_map. }
    set (s1 := after_response s v r q y) in *. clearbody s1. destruct AF as (A1 & A2 & A3 & A4 & A5 & A6 & A7 & A8).
    assert (KD : forall r', In r' rest -> get scalar_eqb (rs_id r') (del scalar_eqb (rs_id r) (callbacks s)) = get scalar_eqb (rs_id r') (callbacks s)).
    { intros r' I'. apply (get_del_other _ scalar_eqb_eq). intros K. apply NI. rewrite <- K. now apply in_map. }
    destruct (get scalar_eqb (rs_id r) (callbacks s1)) as [[n|f]|] eqn:C; rewrite A5 in C.
    + apply pair_equal_spec in H as [<- <-]. right. exists [r], rest. split; [reflexivity|]. split; [apply rp_fun; [exact C|constructor]|].
      cbn [tasks with_tasks with_callbacks]. rewrite A8. split; [reflexivity|]. split; [exact FD1|]. split.
      * intros r' I'. unfold known_callback. cbn [callbacks with_tasks with_callbacks]. rewrite A5. now apply KD.
      * intros f. cbn. now rewrite A7.
    + destruct (existsb (Nat.eqb f) (done (with_callbacks (del scalar_eqb (rs_id r) (callbacks s1)) s1))) eqn:D; cbn [done with_callbacks] in D; rewrite A7 in D.
      * apply existsb_exists in D as (g & IG & EG). apply Nat.eqb_eq in EG as <-.
        apply IH in H; [|exact FD1]. unfold known_callback in *. cbn [callbacks done tasks with_callbacks with_done] in H. rewrite A5, A7, A8 in H.
        destruct H as [(es' & -> & R & T)|(past & rest' & -> & R & T & G)].
        -- left. exists es'. split; [reflexivity|]. split; [|exact T]. eapply rp_over; [exact C|exact IG|].
           eapply reports_ext; [exact R|intros; symmetry; now apply KD|reflexivity].
        -- right. exists (r :: past), rest'. split; [reflexivity|]. split.
           ++ eapply rp_over; [exact C|exact IG|]. eapply reports_ext; [exact R| |reflexivity]. intros r' I'. symmetry. apply KD. apply in_app_iff. now left.
           ++ split; [exact T|]. destruct G as (G1 & G2 & G3). split; [exact G1|]. split; [|exact G3].
              intros r' I'. rewrite (G2 r' I'). apply KD. apply in_app_iff. now right.
      * destruct (created_event t v rest _) as [s2 es2] eqn:R0. apply pair_equal_spec in H as [<- <-].
        assert (NF : ~ In f (done s)).
        { intros I. assert (existsb (Nat.eqb f) (done s) = true) by (apply existsb_exists; exists f; split; [exact I|apply Nat.eqb_refl]). congruence. }
        apply IH in R0; [|exact FD1]. unfold known_callback in *. cbn [callbacks done tasks with_callbacks with_done] in R0. rewrite A5, A7, A8 in R0.
        destruct R0 as [(es' & -> & R & T)|(past & rest' & -> & R & T & G)].
        -- left. exists (EResult f v (rs_id r) (rs_opt r) :: es'). split; [reflexivity|]. split; [|exact T]. eapply rp_fut; [exact C|exact NF|].
           eapply reports_ext; [exact R|intros; symmetry; now apply KD|reflexivity].
        -- right. exists (r :: past), rest'. split; [reflexivity|]. split.
           ++ eapply rp_fut; [exact C|exact NF|]. eapply reports_ext; [exact R| |reflexivity]. intros r' I'. symmetry. apply KD. apply in_app_iff. now left.
           ++ split; [exact T|]. destruct G as (G1 & G2 & G3). split; [exact G1|]. split.
              ** intros r' I'. rewrite (G2 r' I'). apply KD. apply in_app_iff. now right.
              ** intros g. rewrite G3. cbn [given flat_map app]. fold (given es2). cbn [In]. rewrite !in_app_iff. cbn [In]. tauto.
    + apply IH in H; [|exact FD1]. unfold known_callback in *. rewrite A5, A7, A8 in H.
      destruct H as [(es' & -> & R & T)|(past & rest' & -> & R & T & G1 & G2 & G3)].
      * left. exists es'. split; [reflexivity|]. split; [|exact T]. apply rp_none; assumption.
      * right. exists (r :: past), rest'. split; [reflexivity|]. split; [apply rp_none; assumption|]. repeat split; auto; apply G1 || apply G3.
Qed.

Lemma runs_tasks_nodup local P s ls es s' : runs local P s ls es s' -> NoDup (keys (tasks s)) -> NoDup (keys (tasks s')).
Proof. intros R N. eapply runs_nodup_tasks; eassumption. Qed.

(** The request works through its responses. *)
Lemma answering_progress local t v rs s es s' : answering local t v rs s es s' -> findable s v rs -> NoDup (keys (tasks s)) ->
  NoDup (keys (tasks s')) /\
  ((exists es', es = (es' ++ [EAck t v])%list /\ reports v (known_callback s) (done s) rs es' /\ over t s') \/
   (exists past rest, rs = (past ++ rest)%list /\ reports v (known_callback s) (done s) past es /\ get Nat.eqb t (tasks s') = Some (TCreated v rest) /\
     findable s' v rest /\ (forall r, In r rest -> known_callback s' (rs_id r) = known_callback s (rs_id r)) /\
     forall r f, In r rest -> known_callback s (rs_id r) = Some (CFut f) -> In f (done s') <-> In f (given es ++ done s))).
Proof.
  intros A FD ND. induction A as [s1 es ST|es s1 es1 s2 A IH ST|es s1 ls es1 s2 A IH R T U].
  - assert (ND1 : NoDup (keys (tasks s1))) by (eapply runs_tasks_nodup; [eapply (runs_one local any); [exact I|exact ST]|exact ND]).
    split; [exact ND1|]. cbn [step] in ST. destruct (mem _ _ _); [discriminate|]. injection ST as ST.
    destruct (created_part _ _ _ _ _ _ ST FD) as [(es' & -> & R & T)|(past & rest & E & R & T & G1 & G2 & G3)].
    + left. exists es'. split; [reflexivity|]. split; [exact R|]. unfold over. rewrite T. now apply (get_del_same _ Nat.eqb_eq).
    + right. exists past, rest. split; [exact E|]. split; [exact R|]. rewrite T, (get_set_same _ Nat.eqb_eq). repeat split; auto; try apply G1; try apply G3.
  - destruct IH as (ND1 & D).
    assert (ND2 : NoDup (keys (tasks s2))) by (eapply runs_tasks_nodup; [eapply (runs_one local any); [exact I|exact ST]|exact ND1]).
    split; [exact ND2|]. cbn [step] in ST. destruct D as [(es' & _ & _ & O)|(past & rest & -> & R & G & FD1 & KN & DN)]; [rewrite O in ST; discriminate|].
    rewrite G in ST. injection ST as ST.
    assert (EXT : forall o b eb, (forall r, In r b -> In r rest) -> reports v (known_callback s1) o b eb -> o = done s1 -> reports v (known_callback s) (given es ++ done s) b eb).
    { intros o b eb SUB RB ->. eapply reports_ext; [exact RB|intros; symmetry; auto|]. intros r f I K. rewrite (KN r) in K by auto. apply (DN r); auto. }
    destruct (created_part _ _ _ _ _ _ ST FD1) as [(es' & -> & R' & T)|(past' & rest' & -> & R' & T & G1 & G2 & G3)].
    + left. exists (es ++ es')%list. rewrite app_assoc. split; [reflexivity|]. split; [|unfold over; rewrite T; now apply (get_del_same _ Nat.eqb_eq)].
      eapply reports_app; [exact R|]. eapply EXT; [|exact R'|reflexivity]. auto.
    + right. exists (past ++ past')%list, rest'. rewrite app_assoc. split; [reflexivity|]. split.
      * eapply reports_app; [exact R|]. eapply EXT; [|exact R'|reflexivity]. intros r I'. apply in_app_iff. now left.
      * rewrite T, (get_set_same _ Nat.eqb_eq). split; [reflexivity|]. split; [exact G1|]. split.
        -- intros r I'. rewrite (G2 r I'). apply KN. apply in_app_iff. now right.
        -- intros r f I' K. rewrite G3. unfold given. rewrite flat_map_app. fold (given es) (given es1). rewrite !in_app_iff.
           assert (D := DN r f ltac:(apply in_app_iff; now right) K). rewrite in_app_iff in D. tauto.
  - destruct IH as (ND1 & D). split; [eapply runs_tasks_nodup; eassumption|]. destruct U as (U1 & U2 & U3 & U4).
    destruct D as [(es' & -> & R' & O)|(past & rest & -> & R' & G & (N1 & FD1) & KN & DN)].
    + left. exists es'. split; [reflexivity|]. split; [exact R'|]. unfold over in *. congruence.
    + right. exists past, rest. split; [reflexivity|]. split; [exact R'|]. split; [congruence|].
      assert (IN : forall r, In r rest -> In (rs_id r) (map rs_id (past ++ rest))) by (intros r I'; apply in_map, in_app_iff; now right).
      split; [|split].
      * split; [exact N1|]. intros r I'. destruct (FD1 r I') as (x & IX & E1 & E2). exists x. rewrite U1, U2 by exact IX. auto.
      * intros r I'. rewrite U3 by auto. auto.
      * intros r f I' K. rewrite (U4 (rs_id r) f); [|auto|rewrite KN by assumption; exact K]. eauto.
Qed.

(** ** The events that were sent *)
Lemma refresh_refs_completed local clock refs : forall i h r, In r refs -> ev_status (refresh_refs local clock i refs h r) = Completed ->
  exists j t, ap_start (ev_period (refresh_refs local clock i refs h r)) = Aware t /\
    implied t (ap_duration (ev_period (refresh_refs local clock i refs h r))) (ap_ramp_up (ev_period (refresh_refs local clock i refs h r))) (fst (clock j)) Completed.
Proof.
  assert (ONE : forall now now' e, ev_status (refresh local now now' e) = Completed ->
    exists t, ap_start (ev_period (refresh local now now' e)) = Aware t /\
      implied t (ap_duration (ev_period (refresh local now now' e))) (ap_ramp_up (ev_period (refresh local now now' e))) now Completed).
  { intros now now' e C. unfold refresh in *. pose proof (determine_implied local now (ev_period e)) as D. pose proof (determine_period local now (ev_period e)) as P.
    destruct (determine_event_status local now (ev_period e)) as [st p'] eqn:E. cbn [fst snd] in *.
    exists (aware_start local (ev_period e)).
    destruct (status_eq_dec (ev_status e) Cancelled) as [X|X]; [rewrite X in C; congruence|].
    assert (E2 : match ev_status e with
                 | Cancelled => e
                 | old => let e := set_period p' e in if status_eqb old st then e else set_created now' (set_status st e)
                 end = if status_eqb (ev_status e) st then set_period p' e else set_created now' (set_status st (set_period p' e))) by (destruct (ev_status e); reflexivity || congruence).
    cbv zeta in *. rewrite E2 in C |- *. clear E2. subst p'. destruct (status_eqb (ev_status e) st) eqn:Q.
    - apply status_eqb_eq in Q. assert (SC : st = Completed) by (rewrite <- Q; exact C). rewrite SC in D. split; [reflexivity|exact D].
    - cbn in C. subst st. split; [reflexivity|exact D]. }
  assert (KEEP : forall refs i h r (P : event -> Prop), (forall j e, P e -> P (refresh local (fst (clock j)) (snd (clock j)) e)) -> P (h r) -> P (refresh_refs local clock i refs h r)).
  { clear refs. induction refs as [|x refs IH]; intros i h r P HP H; simpl; [exact H|]. apply IH; [exact HP|]. unfold upd. destruct (Nat.eqb_spec r x) as [->|]; auto. }
  intros i h r I.
  set (good e := ev_status e = Completed -> exists j t, ap_start (ev_period e) = Aware t /\ implied t (ap_duration (ev_period e)) (ap_ramp_up (ev_period e)) (fst (clock j)) Completed).
  assert (G : good (refresh_refs local clock i refs h r)); [|exact G].
  assert (ST : forall j e, good (refresh local (fst (clock j)) (snd (clock j)) e)).
  { intros j e C. destruct (ONE _ _ _ C) as (t & A & B). exists j, t. auto. }
  revert i h. induction refs as [|x refs IH]; intros i h; [contradiction|]. simpl. destruct (Nat.eq_dec r x) as [->|N].
  - apply KEEP; [auto|]. rewrite upd_same. apply ST.
  - destruct I as [->|I]; [congruence|]. now apply IH.
Qed.

Lemma sent_cases local s l t v clock s1 sent : (l = LPoll t v clock \/ l = LRequest t v clock) -> step local s l = Some (s1, [ESent t v sent]) ->
  exists o, Permutation (queue s v) o /\ (forall r e, In (r, e) sent -> In r (queue s v) /\ e = heap s1 r) /\ (forall r, In r (queue s1 v) -> In r (map fst sent)) /\
    sent = map (fun r => (r, heap s1 r)) (map fst sent) /\ (NoDup (queue s v) -> NoDup (map fst sent)) /\
    (forall r e, In (r, e) sent -> ev_status e <> Completed -> In r (queue s1 v)) /\
    (forall r e, In (r, e) sent -> ev_status e = Completed -> exists j a, ap_start (ev_period e) = Aware a /\
       implied a (ap_duration (ev_period e)) (ap_ramp_up (ev_period e)) (fst (clock j)) Completed).
Proof.
  intros L ST.
  assert (B : exists p, request_event local t p v clock s = (s1, [ESent t v sent])).
  { destruct L as [-> | ->]; cbn [step] in ST; (destruct (mem _ _ _); [discriminate|]); injection ST as ST.
    - unfold poll in ST. exists true. destruct (get scalar_eqb v (updated s)) as [[]|]; [exact ST|discriminate ST|discriminate ST].
    - exists false. exact ST. }
  destruct B as (p & R0).
  destruct (request_cases local t p v clock s) as [[Q R]|(NQ & h & Hh & [(e & R & _)|(o & q' & i' & s2 & _ & PM & SUB & IFF & _ & A & _ & _ & _ & _ & _ & _ & QS & _ & _ & R)])]; rewrite R in R0; try (destruct p; discriminate R0).
  apply deliver_frame in R0 as (H1 & _ & _ & _ & H2 & _ & _ & _ & [(j & n & id & E & _)|(E & _)]); [discriminate E|].
  injection E as E.
  assert (Q2 : queue s2 v = q') by (unfold queue; now rewrite QS, (get_set_same _ scalar_eqb_eq)).
  assert (Q1 : queue s1 v = q') by (rewrite <- Q2; apply queue_same; exact H2).
  set (l0 := contents s2 v (if is_single (queue s v) then Live else Snap o)) in *.
  assert (L0 : (forall r, In r l0 -> In r (queue s v)) /\ (forall r, In r q' -> In r l0) /\ (NoDup (queue s v) -> NoDup l0)).
  { subst l0. destruct (is_single (queue s v)); cbn [contents].
    - rewrite Q2. split; [intros r I; now apply IFF|]. split; [auto|]. intros ND. eapply sublist_NoDup; eassumption.
    - split; [intros r I; eapply Permutation_in; [symmetry; exact PM|exact I]|]. split; [intros r I; eapply Permutation_in; [exact PM|now apply IFF]|].
      intros ND. eapply Permutation_NoDup; eassumption. }
  destruct L0 as (L1 & L2 & L3).
  assert (FS : map fst sent = l0) by (rewrite E, map_map; cbn; apply map_id).
  assert (ALL : forall r e, In (r, e) sent -> In r l0 /\ e = heap s1 r) by (intros r e I; rewrite E in I; apply in_map_iff in I as (x & EX & IX); injection EX as <- <-; auto).
  exists o. split; [exact PM|]. split; [intros r e I; destruct (ALL r e I); auto|]. rewrite FS, Q1. split; [exact L2|]. split; [exact E|]. split; [exact L3|]. split.
  - intros r e I NC. destruct (ALL r e I) as [I' ->]. apply IFF. split; [now apply L1|]. now rewrite <- A, <- H1.
  - intros r e I C. destruct (ALL r e I) as [I' ->]. rewrite H1, A, Hh in C |- *. apply refresh_refs_completed; [now apply L1|exact C].
Qed.
