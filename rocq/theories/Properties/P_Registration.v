(** C57-C58: registration. *)
From Coq Require Import ZArith String List Bool Lia.
From Verif.Base Require Import Result Dict PyStr ListExtra.
From Verif.Model Require Import VtnService Registration.
From Verif.Spec Require Import VtnServiceSpec RegistrationSpec.
From Verif.Proofs Require Import VtnServiceProofs RegistrationProofs.
Import ListNotations.
Local Open Scope string_scope.
Local Open Scope Z_scope.

Definition T := "oadrCreatePartyRegistration".
Definition TD := "oadrCreatedPartyRegistration".
(** The VTN's registration service: [r] is the user's handler. *)
Definition serves (cfg : config) (freq : option Z) (r : payload -> result grant) : Prop :=
  forall q, c_handle cfg T q = create_party_registration freq (r q) q.
Definition named (q : payload) : Prop := pget "transport_name" q <> None /\ pget "profile_name" q <> None.

(** ** C57 *)
Definition C57_full : Prop := forall w cfg rq q freq r g, sendable w -> w_hook w "after_handle" = Ok tt -> serves cfg freq r -> may_handle w cfg rq T q -> named q -> r q = Ok g ->
  exists p text, snd (handler w cfg rq) = Reply 200 (Message TD p text) /\
    (forall v i, g = GSeq [v; i] -> pget "ven_id" p = Some (Val v) /\ pget "registration_id" p = Some (Val i)) /\
    (g = GNone \/ g = GFalse -> (pget "ven_id" p = None \/ pget "ven_id" p = Some none) /\ pget "registration_id" p = None).

Lemma answered : forall w cfg rq q freq r g, sendable w -> w_hook w "after_handle" = Ok tt -> serves cfg freq r -> may_handle w cfg rq T q -> named q -> r q = Ok g -> g <> GOther ->
  exists p text, snd (handler w cfg rq) = Reply 200 (Message TD p text) /\ 
    match g with
    | GSeq [v; i] => p = finish cfg q (snd (TD, match complete w cfg T q (HPair TD (HDict [("ven_id", Val v); ("registration_id", Val i); ("profiles", profiles); ("requested_oadr_poll_freq", poll_freq_member freq)])) with Ok x => snd x | _ => [] end))
    | GSeq _ => p = finish cfg q (snd (TD, match complete w cfg T q (HPair TD (HDict [])) with Ok x => snd x | _ => [] end))
    | _ => p = finish cfg q (snd (TD, match complete w cfg T q (HPair TD (HDict [("profiles", profiles); ("requested_oadr_poll_freq", poll_freq_member freq)])) with Ok x => snd x | _ => [] end))
    end.
Proof.
  intros w cfg rq q freq r g S AH SV M [N1 N2] R NG. destruct M as (body & p & AR & NR & HV & HN & HA & HF & HH & HT). apply add_fingerprint_iff in HF.
  destruct (handled_ended _ _ _ _ _ _ _ AR NR HV HN HA HF) as (E & M & _). rewrite (handler_reply _ _ _ S), E, M.
  assert (X : forall h pl, c_handle cfg T q = Ok (HPair TD (HDict h)) -> complete w cfg T q (HPair TD (HDict h)) = Ok (TD, pl) ->
    exists text, VtnService.answer w (Some T) (bind (ended (handle_message w cfg T q)) (fun x => Ok (fst x, finish cfg q (snd x)))) = Reply 200 (Message TD (finish cfg q pl) text)).
  { intros h pl C1 C2. rewrite (handle_message_returns _ _ _ _ _ _ HH AH HT C1 C2). cbn [bind fst snd VtnService.answer]. apply (send_ok w TD); [exact S|discriminate|discriminate]. }
  assert (CR : forall h, create_party_registration freq (r q) q = h -> c_handle cfg T q = h) by (intros h <-; apply SV).
  unfold create_party_registration in CR. rewrite R in CR. cbn [bind] in CR.
  destruct (pget "transport_name" q); [|congruence]. destruct (pget "profile_name" q); [|congruence].
  destruct g as [| |l|]; [| | |congruence].
  1, 2: specialize (CR _ eq_refl); destruct (X _ _ CR eq_refl) as [text Y]; eexists; exists text; split; [exact Y|reflexivity].
  destruct l as [|v [|i [|k l]]]; specialize (CR _ eq_refl); destruct (X _ _ CR eq_refl) as [text Y]; eexists; exists text; (split; [exact Y|reflexivity]).
Qed.

(** For a denied VEN that gave its ven_id, the answer repeats it. *)
Definition ex_cfg (g : grant) : config :=
  mk_cfg (SStr "vtn") None None true [T] (fun _ q => create_party_registration (Some 5000000) (Ok g) q).
Definition ex_msg : payload := [("ven_id", Val (SStr "ven1")); ("transport_name", Val (SStr "simpleHttp")); ("profile_name", Val (SStr "2.0b")); ("request_id", Val (SStr "r1"))].
Definition ex_w (t : string) (p : payload) : world :=
  mk_w (fun _ => Ok tt) (fun _ => Ok (t, p)) (fun _ => Raise ValueError) (fun _ => Ok tt) (fun _ => Ok tt) (fun t _ => Ok ("<" ++ t ++ "/>")) (fun _ => Ok tt) "id1".
Definition ex_rq : request := mk_rq "application/xml" (Ok "<x/>") false (Ok None).
Lemma ex_sendable t p : sendable (ex_w t p).
Proof. split; [intros; eexists; reflexivity|reflexivity]. Qed.

Theorem C57_identifiers_refuted : ~ C57_full.
Proof.
  intros F. destruct (F (ex_w T ex_msg) (ex_cfg GFalse) ex_rq ex_msg (Some 5000000) (fun _ => Ok GFalse) GFalse) as (p & text & H & _ & K).
  - apply ex_sendable.
  - reflexivity.
  - intros q. reflexivity.
  - apply handled_iff. vm_compute. auto.
  - split; discriminate.
  - reflexivity.
  - vm_compute in H. injection H as <- _. destruct (K (or_intror eq_refl)) as [[A|A] _]; vm_compute in A; discriminate.
Qed.

(** A pair is passed on: its registration id unchanged, its ven_id unless it is
    no usable identifier and the VEN gave one. *)
Theorem C57_granted_partial : forall w cfg rq q freq r v i, sendable w -> w_hook w "after_handle" = Ok tt -> serves cfg freq r -> may_handle w cfg rq T q -> named q -> r q = Ok (GSeq [v; i]) ->
  exists p text, snd (handler w cfg rq) = Reply 200 (Message TD p text) /\ pget "registration_id" p = Some (Val i) /\
    (usable v \/ pget "ven_id" q = None -> pget "ven_id" p = Some (Val v)) /\
    pget "profiles" p = Some profiles /\ pget "requested_oadr_poll_freq" p = Some (poll_freq_member freq) /\
    pget "response" p = Some (Resp 200 "OK" (Some (pget_none "request_id" q))).
Proof.
  intros w cfg rq q freq r v i S AH SV M N R. destruct (answered _ _ _ _ _ _ _ S AH SV M N R) as (p & text & H & E); [discriminate|]. exists p, text. split; [exact H|]. cbv iota beta in E.
  unfold complete, finish in E. cbn [bind snd] in E. destruct (pget "ven_id" q) as [u|] eqn:U.
  - change (mtruthy (pget_none "ven_id" (pset "vtn_id" (Val (c_vtn cfg)) [("ven_id", Val v); ("registration_id", Val i); ("profiles", profiles); ("requested_oadr_poll_freq", poll_freq_member freq)]))) with (truthy v) in E.
    destruct (truthy v) eqn:Q.
    + subst p. repeat (split; [reflexivity || (intros _; reflexivity)|]). reflexivity.
    + subst p. split; [reflexivity|]. split; [intros [X|X]; [apply usable_iff in X; congruence|discriminate]|]. repeat (split; [reflexivity|]). reflexivity.
  - subst p. repeat (split; [reflexivity || (intros _; reflexivity)|]). reflexivity.
Qed.

(** None and False give no registration id, and no ven_id but the VEN's own. *)
Theorem C57_denied_partial : forall w cfg rq q freq r g, sendable w -> w_hook w "after_handle" = Ok tt -> serves cfg freq r -> may_handle w cfg rq T q -> named q -> r q = Ok g -> g = GNone \/ g = GFalse ->
  exists p text, snd (handler w cfg rq) = Reply 200 (Message TD p text) /\ pget "registration_id" p = None /\ pget "ven_id" p = Some (pget_none "ven_id" q) /\ pget "profiles" p = Some profiles.
Proof.
  intros w cfg rq q freq r g S AH SV M N R G. destruct (answered _ _ _ _ _ _ _ S AH SV M N R) as (p & text & H & E); [destruct G; congruence|]. exists p, text. split; [exact H|].
  assert (E' : p = finish cfg q (snd (TD, match complete w cfg T q (HPair TD (HDict [("profiles", profiles); ("requested_oadr_poll_freq", poll_freq_member freq)])) with Ok x => snd x | _ => [] end))) by (destruct G as [-> | ->]; exact E).
  clear E. unfold complete, finish in E'. cbn [bind snd] in E'. unfold pget_none at 2 in E'. destruct (pget "ven_id" q) as [u|] eqn:U; subst p.
  - split; [reflexivity|]. split; [|reflexivity]. unfold pget_none. now rewrite U.
  - split; [reflexivity|]. split; [|reflexivity]. unfold pget_none. now rewrite U.
Qed.

(** Any other length gives an answer without anything, which does not fit the
    schema: the VEN drops it. *)
Theorem C57_wrong_length_partial : forall w cfg rq q freq r l conv, sendable w -> w_hook w "after_handle" = Ok tt -> serves cfg freq r -> may_handle w cfg rq T q -> named q -> r q = Ok (GSeq l) -> length l <> 2%nat ->
  exists p text, snd (handler w cfg rq) = Reply 200 (Message TD p text) /\ pget "registration_id" p = None /\ on_the_wire conv TD p = Failed.
Proof.
  intros w cfg rq q freq r l conv S AH SV M N R L. destruct (answered _ _ _ _ _ _ _ S AH SV M N R) as (p & text & H & E); [discriminate|]. exists p, text. split; [exact H|].
  assert (E' : p = finish cfg q (snd (TD, match complete w cfg T q (HPair TD (HDict [])) with Ok x => snd x | _ => [] end))) by (destruct l as [|? [|? [|? ?]]]; (exact E || (simpl in L; congruence))).
  clear E. unfold complete, finish in E'. cbn [bind snd] in E'. destruct (pget "ven_id" q) as [u|]; subst p; split; reflexivity.
Qed.

(** End to end: the VEN holds the granted registration, or none. *)
Theorem C57_ven_registered : forall w cfg rq q freq r v i conv s, sendable w -> w_hook w "after_handle" = Ok tt -> serves cfg (Some freq) r -> may_handle w cfg rq T q -> named q -> r q = Ok (GSeq [v; i]) ->
  v <> SNone -> i <> SNone -> usable v -> usable (conv i) ->
  exists p text, snd (handler w cfg rq) = Reply 200 (Message TD p text) /\
    let s' := fst (register (on_the_wire conv TD p) s) in v_reg s' = conv i /\ (usable (conv v) -> v_id s' = conv v) /\ v_freq s' = Some freq.
Proof.
  intros w cfg rq q freq r v i conv s S AH SV M N R NV NI UV UI. destruct (C57_granted_partial _ _ _ _ _ _ _ _ S AH SV M N R) as (p & text & H & E1 & E2 & E3 & E4 & E5). exists p, text. split; [exact H|].
  specialize (E2 (or_introl UV)). unfold on_the_wire. change (String.eqb TD "oadrCreatedPartyRegistration") with true. cbv iota. rewrite E1, E2, E3, E4, E5. cbn [poll_freq_member].
  unfold conv_member. apply usable_iff in UI. destruct v as [|b|z|m n|t]; [congruence|..]; (destruct i as [|b'|z'|m' n'|t']; [congruence|..]);
    (unfold register; cbn [an_code]; change (scalar_eqb (SInt 200) (SInt 200)) with true; cbv iota; cbn [fst]; unfold adopt; cbn [an_reg an_ven an_freq]; rewrite UI, UI;
     match goal with |- context [if truthy ?c then with_id _ _ else _] => destruct (truthy c) eqn:TC end;
     (split; [reflexivity|]; split; [intros X; apply usable_iff in X; congruence || reflexivity|reflexivity])).
Qed.
Theorem C57_ven_not_registered : forall w cfg rq q freq r g conv s, sendable w -> w_hook w "after_handle" = Ok tt -> serves cfg freq r -> may_handle w cfg rq T q -> named q -> r q = Ok g -> g = GNone \/ g = GFalse ->
  exists p text, snd (handler w cfg rq) = Reply 200 (Message TD p text) /\ v_reg (fst (register (on_the_wire conv TD p) s)) = SNone.
Proof.
  intros w cfg rq q freq r g conv s S AH SV M N R G. destruct (answered _ _ _ _ _ _ _ S AH SV M N R) as (p & text & H & E); [destruct G; congruence|]. exists p, text. split; [exact H|].
  assert (E' : p = finish cfg q (snd (TD, match complete w cfg T q (HPair TD (HDict [("profiles", profiles); ("requested_oadr_poll_freq", poll_freq_member freq)])) with Ok x => snd x | _ => [] end))) by (destruct G as [-> | ->]; exact E).
  assert (P : pget "registration_id" p = None /\ pget "profiles" p = Some profiles /\ pget "response" p = Some (Resp 200 "OK" (Some (pget_none "request_id" q)))).
  { clear E. unfold complete, finish in E'. cbn [bind snd] in E'. destruct (pget "ven_id" q) as [u|]; subst p; auto. }
  destruct P as (P1 & P2 & P3). unfold on_the_wire. change (String.eqb TD "oadrCreatedPartyRegistration") with true. cbv iota. rewrite P1, P2, P3. unfold register. cbn [an_code]. change (scalar_eqb (SInt 200) (SInt 200)) with true. cbv iota. cbn [fst].
  rewrite adopt_reg. reflexivity.
Qed.

(** Nor if the handler gives no registration id. *)
Theorem C57_ven_without_id : forall w cfg rq q freq r v conv s, sendable w -> w_hook w "after_handle" = Ok tt -> serves cfg freq r -> may_handle w cfg rq T q -> named q -> r q = Ok (GSeq [v; SNone]) ->
  exists p text, snd (handler w cfg rq) = Reply 200 (Message TD p text) /\ v_reg (fst (register (on_the_wire conv TD p) s)) = SNone.
Proof.
  intros w cfg rq q freq r v conv s S AH SV M N R. destruct (C57_granted_partial _ _ _ _ _ _ _ _ S AH SV M N R) as (p & text & H & E1 & _ & E3 & _ & E5). exists p, text. split; [exact H|].
  unfold on_the_wire. change (String.eqb TD "oadrCreatedPartyRegistration") with true. cbv iota. rewrite E1, E3, E5. unfold register. cbn [an_code]. change (scalar_eqb (SInt 200) (SInt 200)) with true. cbv iota. cbn [fst].
  rewrite adopt_reg. reflexivity.
Qed.
Print Assumptions C57_ven_without_id.
Example C57_example_without_id :
  match snd (handler (ex_w T ex_msg) (ex_cfg (GSeq [SStr "ven7"; SNone])) ex_rq) with
  | Reply 200 (Message t p _) => v_reg (fst (register (on_the_wire (fun x => match x with SNone => SStr "None" | _ => x end) t p) (mk_ven (SStr "ven1") (SStr "old") None (Some []) [] false false)))
  | _ => SBool false end = SNone.
Proof. vm_compute. reflexivity. Qed.

Example C57_example :
  let r g := snd (handler (ex_w T ex_msg) (ex_cfg g) ex_rq) in
  let reg g := match r g with Reply 200 (Message t p _) => v_reg (fst (register (on_the_wire (fun x => x) t p) (mk_ven (SStr "ven1") (SStr "old") None (Some []) [] false false))) | _ => SBool false end in
  (reg (GSeq [SStr "ven7"; SStr "reg7"]), reg GFalse, reg GNone, reg (GSeq [SStr "a"])) = (SStr "reg7", SNone, SNone, SStr "old").
Proof. vm_compute. reflexivity. Qed.
Print Assumptions C57_identifiers_refuted.
Print Assumptions C57_granted_partial.
Print Assumptions C57_denied_partial.
Print Assumptions C57_wrong_length_partial.
Print Assumptions C57_ven_registered.
Print Assumptions C57_ven_not_registered.

(** ** C58 *)
(** After a re-registration the VEN polls at the frequency it was told. *)
Definition C58_frequency_full : Prop := forall xs s0 o a r f reports sync, s0 = do_steps xs (initial SNone []) -> (exists f0, polls_every s0 f0) -> grants o a r -> an_freq a = Some f ->
  polls_every (fst (do_step (SReregister o (Ok reports) sync) s0)) (Z.min f day).
(** After a cancellation it can register again, and then polls. *)
Definition C58_again_full : Prop := forall xs x s0, s0 = do_steps xs (initial SNone []) -> ends_registration x s0 ->
  exists ys, let s := do_steps ys (fst (do_step x s0)) in usable (v_reg s) /\ exists f, polls_every s f.

Definition granted (r : string) (f : Z) : answer := mk_an TD (Some (SInt 200)) (Some (SStr r)) (Some (SStr "ven1")) (Some f).
Definition ex_start : step := SRun Failed (Answered (granted "reg1" 5000000)) (Ok []) (Ok tt) PNothing.
Definition ex_running := do_steps [ex_start] (initial SNone []).
Definition ex_canceled : outcome := Answered (mk_an "oadrCanceledPartyRegistration" (Some (SInt 200)) None None None).

Theorem C58_frequency_refuted : ~ C58_frequency_full.
Proof.
  intros F. specialize (F [ex_start] ex_running (Answered (granted "reg2" 60000000)) (granted "reg2" 60000000) (SStr "reg2") 60000000 [] (Ok tt) eq_refl).
  assert (P : exists f0, polls_every ex_running f0) by (exists 5000000; vm_compute; auto).
  assert (G : grants (Answered (granted "reg2" 60000000)) (granted "reg2" 60000000) (SStr "reg2")) by (split; [reflexivity|]; split; [reflexivity|]; split; [reflexivity|]; apply usable_iff; reflexivity).
  specialize (F P G eq_refl). vm_compute in F. repeat (destruct F as [F|F]; [discriminate|]). destruct F.
Qed.

Theorem C58_never_again_partial : forall x s0 ys, ends_registration x s0 -> let s := do_steps ys (fst (do_step x s0)) in
  (forall f, ~ polls_every s f) /\
  (forall o a r reports sync, grants o a r -> snd (do_step (SReregister o reports sync) s) = Raise TypeError) /\
  (forall q o a r reports sync first, q <> Empty -> grants o a r -> snd (do_step (SRun q o reports sync first) s) = Raise TypeError).
Proof.
  intros x s0 ys E. cbv zeta. destruct (ended_state _ _ E) as (_ & N & J). destruct (steps_None ys _ N) as [N' J']. set (s := do_steps ys (fst (do_step x s0))) in *.
  assert (G : forall o a r s1, v_reports s1 = None -> grants o a r -> exists s2, register o s1 = (s2, Ok tt) /\ truthy (v_reg s2) = true /\ v_reports s2 = None).
  { intros o a r s1 N1 (-> & C & R & U). unfold register. rewrite C. change (scalar_eqb (SInt 200) (SInt 200)) with true. cbv iota. eexists. split; [reflexivity|]. rewrite adopt_reg, R. apply usable_iff in U. rewrite U.
    split; [exact U|]. destruct (adopt_keeps a (connected s1)) as (A & _). now rewrite A. }
  split; [intros f I; apply J' in I; rewrite J in I; destruct I|]. split.
  - intros o a r reports sync H. cbn [do_step]. unfold reregister. destruct (G o a r s N' H) as (s2 & R & U & N2). rewrite R, U. cbn [negb]. now rewrite (register_reports_None _ _ N2).
  - intros q o a r reports sync first Q H. cbn [do_step]. unfold run.
    assert (X : forall s1, v_reports s1 = None -> snd (match register o s1 with
       | (s, Raise e) => (s, Raise e)
       | (s, Ok _) => if negb (truthy (v_reg s)) then stop s
         else match register_reports reports s with
           | (s, Raise e) => (s, Raise e)
           | (s, Ok _) => match sync with Raise e => (s, Raise e) | Ok _ => match poll first s with (s, Raise e) => (s, Raise e) | (s, Ok _) => start s end end
           end
       end) = Raise TypeError).
    { intros s1 N1. destruct (G o a r s1 N1 H) as (s2 & R & U & N2). rewrite R, U. cbn [negb]. now rewrite (register_reports_None _ _ N2). }
    destruct q as [| |b]; [apply X; exact N'|congruence|]. apply X. destruct (an_reg b); exact N'.
Qed.

Theorem C58_again_refuted : ~ C58_again_full.
Proof.
  intros F. destruct (F [ex_start] (SCancel ex_canceled) ex_running eq_refl) as (ys & _ & f & P).
  - left. exists ex_canceled. split; [reflexivity|]. split; [discriminate|]. eexists. split; [reflexivity|]. split; reflexivity.
  - assert (E : ends_registration (SCancel ex_canceled) ex_running) by (left; exists ex_canceled; split; [reflexivity|]; split; [discriminate|]; eexists; split; [reflexivity|]; split; reflexivity).
    destruct (C58_never_again_partial _ _ ys E) as (A & _). exact (A f P).
Qed.

(** A registration: the VEN holds what the answer says. *)
Theorem C58_granted_partial : forall o a r s s' x, grants o a r -> register o s = (s', x) ->
  x = Ok tt /\ v_reg s' = r /\ v_freq s' = Some (match an_freq a with Some f => f | None => 10000000 end) /\
  (forall v, an_ven a = Some v -> usable v -> v_id s' = v) /\ ((forall v, an_ven a = Some v -> ~ usable v) -> v_id s' = v_id s).
Proof.
  intros o a r s s' x (-> & C & R & U) H. unfold register in H. rewrite C in H. change (scalar_eqb (SInt 200) (SInt 200)) with true in H. cbv iota in H. injection H as <- <-. apply usable_iff in U.
  unfold adopt. rewrite R, U, U. split; [reflexivity|]. destruct (an_ven a) as [v|].
  - destruct (truthy v) eqn:Q; (split; [reflexivity|]; split; [reflexivity|]; split).
    + intros v' E _. now injection E as <-.
    + intros N. elim (N v eq_refl). now apply usable_iff.
    + intros v' E X. injection E as <-. apply usable_iff in X. congruence.
    + reflexivity.
  - split; [reflexivity|]. split; [reflexivity|]. split; [discriminate|reflexivity].
Qed.
Theorem C58_denied_partial : forall o a s s' x, denies o a -> register o s = (s', x) -> x = Ok tt /\ v_reg s' = SNone /\ v_freq s' = v_freq s.
Proof.
  intros o a s s' x (-> & C & N) H. unfold register in H. rewrite C in H. change (scalar_eqb (SInt 200) (SInt 200)) with true in H. cbv iota in H. injection H as <- <-. split; [reflexivity|].
  assert (E : match an_reg a with Some r => if truthy r then r else SNone | None => SNone end = SNone).
  { destruct (an_reg a) as [r|]; [|reflexivity]. destruct (truthy r) eqn:Q; [|reflexivity]. elim (N r eq_refl). now apply usable_iff. }
  rewrite adopt_reg. split; [exact E|]. unfold adopt. rewrite E. destruct (an_ven a) as [v|]; [destruct (truthy v)|]; reflexivity.
Qed.
(** A VEN that wanted to start or to register again, and is denied it, stops. *)
Theorem C58_denied_stops_partial : forall o a q reports sync first s x, denies o a -> q <> Empty ->
  In x [SReregister o reports sync; SPoll (PRereg o reports sync); SRun q o reports sync first] ->
  snd (do_step x s) = Ok tt /\ v_running (fst (do_step x s)) = false /\ v_reg (fst (do_step x s)) = SNone /\ v_jobs (fst (do_step x s)) = v_jobs s.
Proof.
  intros o a q reports sync first s x D Q I.
  assert (R : forall s0, exists s', register o s0 = (s', Ok tt) /\ v_reg s' = SNone /\ v_session s' = true /\ v_jobs s' = v_jobs s0).
  { intros s0. destruct (register o s0) as [s' r] eqn:E. destruct (C58_denied_partial o a s0 s' r D E) as (-> & V & _). exists s'. split; [reflexivity|]. split; [exact V|].
    destruct (register_cases _ _ _ _ E) as [(b & _ & _ & -> & _)|[_ ->]]; [|now split]. destruct (adopt_keeps b (connected s0)) as (_ & J & _ & SE). now rewrite J, SE. }
  assert (W : forall s0 s', register o s0 = (s', Ok tt) -> v_reg s' = SNone -> v_session s' = true -> v_jobs s' = v_jobs s0 ->
    forall st : run_result unit, st = (if negb (truthy (v_reg s')) then stop s' else st) -> snd st = Ok tt /\ v_running (fst st) = false /\ v_reg (fst st) = SNone /\ v_jobs (fst st) = v_jobs s0).
  { intros s0 s' _ V SE J st E. rewrite V in E. cbn [truthy negb] in E. rewrite E. unfold stop. cbn [fst snd with_running v_session v_running v_reg v_jobs]. rewrite SE. now repeat split. }
  destruct I as [<-|[<-|[<-|[]]]]; cbn [do_step poll].
  - destruct (R s) as (s' & E & V & SE & J). apply (W s s' E V SE J). unfold reregister. rewrite E, V. reflexivity.
  - destruct (R (connected s)) as (s' & E & V & SE & J). change (v_jobs s) with (v_jobs (connected s)). apply (W _ s' E V SE J). unfold reregister. rewrite E, V. reflexivity.
  - unfold run. set (s0 := match q with Answered a0 => match an_reg a0 with Some r => with_reg r (connected s) | None => connected s end | _ => connected s end).
    assert (J0 : v_jobs s0 = v_jobs s) by (unfold s0; destruct q as [| |b]; [reflexivity|reflexivity|]; destruct (an_reg b); reflexivity).
    destruct (R s0) as (s' & E & V & SE & J). rewrite <- J0. apply (W s0 s' E V SE J). destruct q as [| |b]; [|contradiction|]; rewrite E, V; reflexivity.
Qed.
Print Assumptions C58_denied_stops_partial.
Example C58_example_denied : denies (Answered (mk_an TD (Some (SInt 200)) (Some SNone) None None)) (mk_an TD (Some (SInt 200)) (Some SNone) None None).
Proof. split; [reflexivity|]. split; [reflexivity|]. intros r [= <-] (N & _). now apply N. Qed.
Theorem C58_failed_partial : forall o s s' x, fails o -> register o s = (s', x) -> v_reg s' = v_reg s /\ v_id s' = v_id s /\ v_freq s' = v_freq s /\ v_jobs s' = v_jobs s /\ v_reports s' = v_reports s.
Proof.
  intros o s s' x F H. destruct (register_cases _ _ _ _ H) as [(a & -> & C & _)|[_ ->]]; [elim (F a eq_refl C)|]. repeat (split; [reflexivity|]). reflexivity.
Qed.

(** Cancellation: only a confirmed one counts, and one that the VTN sends for
    this registration. *)
Theorem C58_cancelled_partial : forall x s, ends_registration x s -> snd (do_step x s) = Ok tt /\ v_reg (fst (do_step x s)) = SNone /\ v_jobs (fst (do_step x s)) = [].
Proof.
  intros x s E. destruct (ended_state _ _ E) as (A & _ & B). split; [|auto]. destruct E as [(o & -> & N & C)|(o & -> & N & C)]; cbn [do_step poll].
  - now rewrite (cancel_confirmed _ _ N C).
  - change (v_reg s) with (v_reg (connected s)) in N. change (v_reg s) with (v_reg (connected s)). now rewrite (on_cancel_ours _ _ N C).
Qed.
Theorem C58_not_cancelled_partial : forall s,
  (forall o, ~ confirms o -> let s' := fst (do_step (SCancel o) s) in v_reg s' = v_reg s /\ v_reports s' = v_reports s /\ v_jobs s' = v_jobs s) /\
  (forall reg o, reg <> Some (v_reg s) -> let s' := fst (do_step (SPoll (PCancel reg o)) s) in v_reg s' = v_reg s /\ v_reports s' = v_reports s /\ v_jobs s' = v_jobs s).
Proof.
  intros s. split.
  - intros o N. apply cancel_unconfirmed. exact N.
  - intros reg o N. apply (on_cancel_other reg o (connected s)). exact N.
Qed.

(** A VTN whose cancellation handler returns nothing (as the placeholder does,
    and as its message says one may) never confirms. *)
Theorem C58_silent_handler_partial : forall w cfg rq q p conv text t, sendable w -> w_hook w "after_handle" = Ok tt -> may_handle w cfg rq "oadrCancelPartyRegistration" q ->
  c_handle cfg "oadrCancelPartyRegistration" q = cancel_party_registration_vtn on_cancel_placeholder -> snd (handler w cfg rq) = Reply 200 (Message t p text) -> ~ confirms (on_the_wire conv t p).
Proof.
  intros w cfg rq q p conv text t S AH M C H. destruct M as (body & p0 & AR & NR & HV & HN & HA & HF & HH & HT). apply add_fingerprint_iff in HF.
  destruct (handled_ended _ _ _ _ _ _ _ AR NR HV HN HA HF) as (E & M & _). rewrite (handler_reply _ _ _ S), E, M in H.
  rewrite (handle_message_returns _ _ _ _ _ _ HH AH HT C eq_refl) in H. cbn [bind fst snd VtnService.answer] in H.
  match type of H with send w ?t' ?p' = _ => destruct (send_ok w t' p' S) as [s X]; [discriminate|discriminate|]; rewrite X in H end. injection H as <- _ _.
  intros (a & A & B & _). unfold on_the_wire in A. change (String.eqb "oadrResponse" "oadrCreatedPartyRegistration") with false in A. injection A as <-. discriminate.
Qed.

(** In every history: a registration that the VEN holds was given to it. *)
Theorem C58_given_partial : forall xs i reports, let r := v_reg (do_steps xs (initial i reports)) in r = SNone \/ given xs r.
Proof. intros xs i reports. cbv zeta. destruct (from_steps xs (initial i reports)) as [H|[H|H]]; [left; exact H|now left|now right]. Qed.

(** The frequency: [run] polls at the frequency it was told, at least daily. *)
Theorem C58_run_frequency_partial : forall q o a r reports first s s', run q o (Ok reports) (Ok tt) first s = (s', Ok tt) -> grants o a r ->
  (forall o' rs sy, first <> PRereg o' rs sy) ->
  polls_every s' (Z.min (match an_freq a with Some f => f | None => 10000000 end) day) /\ v_freq s' = Some (Z.min (match an_freq a with Some f => f | None => 10000000 end) day).
Proof.
  intros q o a r reports first s s' H G NP. set (f := match an_freq a with Some f => f | None => 10000000 end).
  unfold run in H. set (s0 := match q with Answered a => match an_reg a with Some r => with_reg r (connected s) | None => connected s end | _ => connected s end) in H.
  assert (H' : (match register o s0 with
       | (s, Raise e) => (s, Raise e)
       | (s, Ok _) => if negb (truthy (v_reg s)) then stop s
         else match register_reports (Ok reports) s with
           | (s, Raise e) => (s, Raise e)
           | (s, Ok _) => match poll first s with (s, Raise e) => (s, Raise e) | (s, Ok _) => start s end
           end
       end) = (s', Ok tt)) by (unfold s0 in *; destruct q; [exact H|discriminate|exact H]).
  clear H. clearbody s0. destruct (register o s0) as [s1 x] eqn:R. destruct (C58_granted_partial _ _ _ _ _ _ G R) as (-> & E1 & E2 & _). fold f in E2.
  destruct G as (_ & _ & _ & U). apply usable_iff in U. rewrite E1, U in H'. cbn [negb] in H'. unfold register_reports in H'. destruct (v_reports s1) as [rs|]; [|discriminate].
  assert (P : forall s2 s3 x, poll first s2 = (s3, x) -> v_freq s3 = v_freq s2).
  { intros s2 s3 x P. unfold poll in P. destruct first as [| |o' rs' sy|reg o'|keep added y]; try (injection P as <- <-; reflexivity); [elim (NP o' rs' sy eq_refl)|].
    unfold on_cancel in P. destruct (v_reg (connected s2)); [injection P as <- <-; reflexivity|..]; (destruct reg as [r0|]; [|injection P as <- <-; reflexivity]; destruct (scalar_eqb _ r0); destruct o'; injection P as <- <-; reflexivity). }
  destruct (poll first (with_jobs (v_jobs s1 ++ map JReport reports) s1)) as [s3 [[]|e]] eqn:Q; [|discriminate]. apply P in Q. cbn [with_jobs v_freq] in Q. rewrite E2 in Q.
  unfold start in H'. rewrite Q in H'. unfold polls_every. destruct (Z.gtb_spec f day) as [L|L].
  - rewrite Z.min_r by lia. cbn [v_running with_jobs with_freq] in H'. destruct (v_running s3); [discriminate|]. injection H' as <-. split; [|reflexivity]. cbn [v_jobs with_running with_jobs]. apply in_app_iff. right. now left.
  - rewrite Z.min_l by lia. cbn [v_running with_jobs with_freq] in H'. destruct (v_running s3); [discriminate|]. injection H' as <-. split; [|exact Q]. cbn [v_jobs with_running with_jobs]. apply in_app_iff. right. now left.
Qed.
(** Nothing after that changes it. *)
Theorem C58_frequency_fixed_partial : forall xs s f, (forall x, In x xs -> ~ runs x) -> polls_every (do_steps xs s) f -> polls_every s f.
Proof. intros xs s f N P. now apply (steps_jobs xs). Qed.

Example C58_example :
  let s := ex_running in
  (v_reg s, v_id s, v_jobs s) = (SStr "reg1", SStr "ven1", [JPoll 5000000; JStatusLog; JCleanup]) /\
  v_reg (do_steps [SRegister Failed] s) = SStr "reg1" /\ v_reg (do_steps [SCancel ex_canceled] s) = SNone /\
  v_reg (do_steps [SCancel ex_canceled; SRegister (Answered (granted "reg3" 1))] s) = SStr "reg3" /\ v_jobs (do_steps [SCancel ex_canceled; SRegister (Answered (granted "reg3" 1))] s) = [].
Proof. vm_compute. auto. Qed.
Print Assumptions C58_frequency_refuted.
Print Assumptions C58_never_again_partial.
Print Assumptions C58_again_refuted.
Print Assumptions C58_granted_partial.
Print Assumptions C58_denied_partial.
Print Assumptions C58_failed_partial.
Print Assumptions C58_cancelled_partial.
Print Assumptions C58_not_cancelled_partial.
Print Assumptions C58_silent_handler_partial.
Print Assumptions C58_given_partial.
Print Assumptions C58_run_frequency_partial.
Print Assumptions C58_frequency_fixed_partial.
