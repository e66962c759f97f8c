From Coq Require Import ZArith String List Bool Lia.
From Verif.Base Require Import Result Dict PyStr ListExtra.
From Verif.Model Require Import VtnService.
From Verif.Spec Require Import VtnServiceSpec.
Import ListNotations.
Local Open Scope string_scope.
Local Open Scope Z_scope.

Lemma eff_lift {A B} (r : result A) (f : A -> comp B) x : In x (effects (cbind (lift r) f)) <-> exists a, r = Ok a /\ In x (effects (f a)).
Proof.
  unfold cbind, lift. cbn [ended effects mtype]. destruct r as [a|e]; cbn [effects].
  - split; [intros H; exists a; auto|]. intros (a' & E & H). injection E as <-. exact H.
  - split; [intros []|]. intros (a & E & _). discriminate.
Qed.
Lemma eff_bound {A B} t (r : result A) (f : A -> comp B) x : In x (effects (cbind (mk_comp [] t r) f)) <-> exists a, r = Ok a /\ In x (effects (f a)).
Proof.
  unfold cbind. cbn [ended effects mtype]. destruct r as [a|e]; cbn [effects].
  - split; [intros H; exists a; auto|]. intros (a' & E & H). injection E as <-. exact H.
  - split; [intros []|]. intros (a & E & _). discriminate.
Qed.

Fixpoint msize (m : member) : nat := match m with Resp _ _ (Some r) => S (msize r) | _ => O end.
Lemma member_eqb_eq a b : member_eqb a b = true <-> a = b.
Proof.
  revert b. assert (H : forall n a, (msize a < n)%nat -> forall b, member_eqb a b = true <-> a = b); [|intros b; apply (H (S (msize a)) a); lia].
  induction n as [|n IH]; intros x L y; [lia|]. destruct x as [v|c d r|o|k], y as [v'|c' d' r'|o'|k']; cbn [member_eqb]; try (split; intros; discriminate).
  - rewrite scalar_eqb_eq. split; congruence.
  - rewrite !andb_true_iff, Z.eqb_eq, String.eqb_eq. destruct r as [r|], r' as [r'|].
    + cbn [msize] in L. rewrite IH by lia. split; [intros [[-> ->] ->]; reflexivity|]. intros E. injection E as -> -> ->. auto.
    + split; [intros [_ E]; discriminate|discriminate].
    + split; [intros [_ E]; discriminate|discriminate].
    + split; [intros [[-> ->] _]; reflexivity|]. intros E. injection E as -> ->. auto.
  - destruct (val_eq_dec o o'); split; congruence.
  - rewrite Nat.eqb_eq. split; congruence.
Qed.

Lemma unit_ok (r : result unit) a : r = Ok a <-> r = Ok tt.
Proof. destruct a. reflexivity. Qed.

Lemma check_content_ok rq a : check_content rq = Ok a <-> xml_content rq.
Proof.
  rewrite unit_ok. unfold check_content, xml_content. rewrite <- startswith_spec. destruct (startswith _ _); split; congruence.
Qed.

Lemma check_vtn_ok cfg p a : check_vtn cfg p = Ok a <-> for_us cfg p.
Proof.
  rewrite unit_ok. unfold check_vtn, for_us. destruct (pget "vtn_id" p) as [v|]; [|split; [now left|reflexivity]].
  destruct (negb (member_eqb v none) && negb (member_eqb v (Val (c_vtn cfg)))) eqn:E.
  - apply andb_true_iff in E as [A B]. apply negb_true_iff, not_true_iff_false in A, B. rewrite member_eqb_eq in A, B. unfold none in A.
    split; [discriminate|]. intros [H|[H|H]]; [discriminate|injection H as ->; contradiction|injection H as ->; contradiction].
  - split; [intros _|reflexivity]. apply andb_false_iff in E as [E|E]; apply negb_false_iff in E; apply member_eqb_eq in E; subst; unfold none; auto.
Qed.
Lemma check_vtn_fail cfg p : ~ for_us cfg p -> check_vtn cfg p = Raise (ProtocolError 452 "").
Proof.
  intros N. destruct (check_vtn cfg p) as [a|e] eqn:E; [elim N; now apply (check_vtn_ok cfg p a)|]. unfold check_vtn in E. destruct (pget "vtn_id" p); [|discriminate].
  destruct (_ && _); [now injection E as <-|discriminate].
Qed.

Lemma opening_iff t : String.eqb t "oadrCreatePartyRegistration" || String.eqb t "oadrQueryRegistration" = true <-> opening t.
Proof. unfold opening. rewrite orb_true_iff, !String.eqb_eq. reflexivity. Qed.

Lemma check_ven_ok cfg t p : (exists n, check_ven cfg t p = Ok n) <-> registered_ven cfg t p.
Proof.
  unfold check_ven, registered_ven. pose proof (opening_iff t) as O. destruct (_ || _) eqn:E.
  - split; [intros _; left; now apply O|]. intros _. eauto.
  - assert (NO : ~ opening t) by (intros H; apply O in H; congruence). destruct (pget "ven_id" p) as [v|]; [|split; [intros _; right; now left|eauto]].
    destruct (c_ven_lookup cfg) as [lookup|]; [|split; [intros _; right; right; now left|eauto]].
    split.
    + intros [n H]. right. right. right. destruct (lookup 0%nat v) as [[info|]|e] eqn:L; cbn [bind] in H; try discriminate.
      destruct (get String.eqb "registration_id" info) as [r|] eqn:R; [|discriminate]. exists v, lookup, info, r. split; [reflexivity|]. split; [reflexivity|]. split; [exact L|]. split; [exact R|]. now intros ->.
    + intros [H|[H|[H|(v' & lookup' & info & r & A & B & C & D & F)]]]; try contradiction; try discriminate.
      injection A as <-. injection B as <-. rewrite C. cbn [bind]. rewrite D. destruct r; try contradiction; eauto.
Qed.
Lemma check_ven_number cfg t p n v lookup : check_ven cfg t p = Ok n -> pget "ven_id" p = Some v -> c_ven_lookup cfg = Some lookup -> (opening t /\ n = 0%nat \/ ~ opening t /\ n = 1%nat).
Proof.
  unfold check_ven. intros H V L. pose proof (opening_iff t) as O. destruct (_ || _) eqn:E.
  - injection H as <-. left. split; [now apply O|reflexivity].
  - right. split; [intros X; apply O in X; congruence|]. rewrite V, L in H. destruct (lookup 0%nat v) as [[info|]|e]; cbn [bind] in H; try discriminate.
    destruct (get String.eqb "registration_id" info) as [[]|]; try discriminate; now injection H as <-.
Qed.

Lemma catch_value_ok {A} (r : result A) a : catch_value r = Ok a <-> r = Ok a.
Proof. unfold catch_value, unauthorised. destruct r as [x|[]]; split; congruence. Qed.
Lemma truthy_str f : truthy (SStr f) = true <-> f <> "".
Proof. destruct f; simpl; split; congruence. Qed.

(** The two ways to find the expected fingerprint. *)
Lemma expected_iff cfg t n (ven : member) fp : has_lookup cfg -> (forall lookup, c_ven_lookup cfg = Some lookup -> opening t /\ n = 0%nat \/ ~ opening t /\ n = 1%nat) ->
  match (if c_fp_lookup cfg then true else false), c_fp_lookup cfg, c_ven_lookup cfg with
  | true, Some lookup, _ => bind (lookup ven) (fun e => if truthy e then Ok e else Raise ValueError)
  | false, _, Some lookup => bind (lookup n ven) (fun info =>
      match info with
      | Some ((_ :: _) as i) => Ok (match get String.eqb "fingerprint" i with Some f => f | None => SNone end)
      | _ => Raise ValueError
      end)
  | _, _, _ => Raise UnboundLocalError
  end = Ok (SStr fp) <-> on_file cfg t ven fp.
Proof.
  intros HL HN. unfold on_file. destruct (c_fp_lookup cfg) as [lookup|] eqn:CF.
  - destruct (lookup ven) as [e|err]; cbn [bind]; [|split; [discriminate|intros [H _]; discriminate]]. destruct (truthy e) eqn:T.
    + split; [intros H; injection H as ->; split; [reflexivity|now apply truthy_str]|]. intros [H _]. exact H.
    + split; [discriminate|]. intros [H N]. injection H as ->. apply truthy_str in N. congruence.
  - destruct (c_ven_lookup cfg) as [lookup|] eqn:CL; [|destruct HL; congruence]. specialize (HN lookup eq_refl). split.
    + destruct (lookup n ven) as [[[|kv i]|]|err] eqn:L; cbn [bind]; try discriminate. intros H. exists lookup, n, (kv :: i). split; [reflexivity|]. split; [exact HN|]. split; [exact L|].
      destruct (get String.eqb "fingerprint" (kv :: i)); [now injection H as ->|discriminate].
    + intros (lookup' & n' & info & A & B & C & D). injection A as <-. assert (n' = n) by (destruct B as [[B1 B2]|[B1 B2]], HN as [[C1 C2]|[C1 C2]]; congruence || contradiction). subst n'.
      rewrite C. cbn [bind]. destruct info as [|kv i]; [discriminate|]. now rewrite D.
Qed.

Lemma authenticate_iff w cfg t n rq body p ven : pget "ven_id" p = Some ven -> has_lookup cfg ->
  (forall lookup, c_ven_lookup cfg = Some lookup -> opening t /\ n = 0%nat \/ ~ opening t /\ n = 1%nat) ->
  authenticate w cfg n (if c_fp_lookup cfg then true else false) rq body p = Ok tt <-> authentic w cfg rq body t ven.
Proof.
  intros V HL HN. unfold authenticate, authentic. pose proof (expected_iff cfg t n ven) as X. specialize (fun fp => X fp HL HN).
  assert (PV : pget_none "ven_id" p = ven) by (unfold pget_none; now rewrite V). rewrite PV.
  destruct (rq_cert rq) as [[con|]|err]; cbn [bind]; try (split; [discriminate|intros (fp & H & _); discriminate]).
  set (ex := match (if c_fp_lookup cfg then true else false), c_fp_lookup cfg, c_ven_lookup cfg with
    | true, Some lookup, _ => bind (lookup ven) (fun e => if truthy e then Ok e else Raise ValueError)
    | false, _, Some lookup => bind (lookup n ven) (fun info => match info with Some ((_ :: _) as i) => Ok (match get String.eqb "fingerprint" i with Some f => f | None => SNone end) | _ => Raise ValueError end)
    | _, _, _ => Raise UnboundLocalError end) in *.
  split.
  - destruct (catch_value ex) as [e|err] eqn:C; cbn [bind]; [|discriminate]. rewrite catch_value_ok in C. unfold unauthorised.
    destruct (scalar_eqb e SNone) eqn:N; [discriminate|]. destruct (scalar_eqb (SStr con) e) eqn:Q; cbn [negb]; [|discriminate]. apply scalar_eqb_eq in Q. subst e.
    apply X in C. intros H. exists con. split; [reflexivity|]. split; [exact C|]. intros CV. rewrite CV in H.
    destruct (w_signer w body) as [sg|]; cbn [bind] in H; [|discriminate]. destruct (scalar_eqb (SStr sg) (SStr con)) eqn:S; cbn [negb] in H; [|discriminate].
    apply scalar_eqb_eq in S. injection S as ->. rewrite catch_value_ok in H. unfold validate_signature in H. destruct (w_verify w body) as [[]|]; [|discriminate]. auto.
  - intros (fp & A & B & C). injection A as ->. apply X in B. rewrite B. cbn [catch_value bind]. change (scalar_eqb (SStr fp) SNone) with false. rewrite scalar_eqb_refl. cbn [negb].
    destruct (c_verify cfg); [|reflexivity]. destruct (C eq_refl) as (D & E & F). rewrite D. cbn [bind]. rewrite scalar_eqb_refl. cbn [negb]. unfold validate_signature. rewrite E. cbn [bind]. now rewrite F.
Qed.

Lemma check_sender_iff w cfg t n rq body p : check_ven cfg t p = Ok n ->
  (check_sender w cfg n rq body p = Ok tt <-> (forall ven, rq_secure rq = true -> pget "ven_id" p = Some ven -> has_lookup cfg -> authentic w cfg rq body t ven)).
Proof.
  intros N. unfold check_sender. destruct (pget "ven_id" p) as [v|] eqn:V; [|split; [intros _ ven _ H; discriminate|reflexivity]].
  destruct (rq_secure rq); [|split; [intros _ ven H; discriminate|reflexivity]].
  assert (D : has_lookup cfg \/ c_fp_lookup cfg = None /\ c_ven_lookup cfg = None).
  { unfold has_lookup. destruct (c_fp_lookup cfg); [left; left; discriminate|]. destruct (c_ven_lookup cfg); [left; right; discriminate|now right]. }
  destruct D as [HL|[A B]].
  - assert (E : match c_fp_lookup cfg, c_ven_lookup cfg with Some _, _ => authenticate w cfg n true rq body p | None, Some _ => authenticate w cfg n false rq body p | None, None => Ok tt end
      = authenticate w cfg n (if c_fp_lookup cfg then true else false) rq body p).
    { destruct (c_fp_lookup cfg) eqn:C1; [reflexivity|]. destruct (c_ven_lookup cfg) eqn:C2; [reflexivity|]. destruct HL; congruence. }
    rewrite E, (authenticate_iff w cfg t n rq body p v V HL). 2: { intros lookup L. eapply check_ven_number; eassumption. }
    split; [intros A ven _ Q _; injection Q as <-; exact A|]. intros A. now apply A.
  - rewrite A, B. split; [|reflexivity]. intros _ ven _ _ [H|H]; congruence.
Qed.

Lemma add_fingerprint_iff rq t p q : add_fingerprint rq t p = Ok q <->
  (rq_secure rq = true /\ t = "oadrCreatePartyRegistration" /\
     (exists fp, rq_cert rq = Ok fp /\ q = pset "fingerprint" (match fp with Some f => Val (SStr f) | None => Val SNone end) p) \/
   ~ (rq_secure rq = true /\ t = "oadrCreatePartyRegistration") /\ q = p).
Proof.
  unfold add_fingerprint. destruct (rq_secure rq && String.eqb t "oadrCreatePartyRegistration") eqn:E.
  - apply andb_true_iff in E as [A B]. apply String.eqb_eq in B. destruct (rq_cert rq) as [fp|err]; cbn [bind].
    + split; [intros H; left; split; [exact A|]; split; [exact B|]; exists fp; injection H as <-; auto|]. intros [(_ & _ & fp' & H & ->)|[H _]]; [|tauto]. injection H as <-. reflexivity.
    + split; [discriminate|]. intros [(_ & _ & fp' & H & _)|[H _]]; [discriminate|tauto].
  - assert (N : ~ (rq_secure rq = true /\ t = "oadrCreatePartyRegistration")) by (intros [A ->]; rewrite A, String.eqb_refl in E; discriminate).
    split; [intros H; right; split; [exact N|now injection H]|]. intros [(A & B & _)|[_ ->]]; [tauto|reflexivity].
Qed.

Lemma in_types t l : existsb (String.eqb t) l = true <-> In t l.
Proof. rewrite existsb_exists. split; [intros (x & I & E); apply String.eqb_eq in E; now subst|]. intros I. exists t. split; [exact I|apply String.eqb_refl]. Qed.

Lemma handle_message_eff w cfg t p x : In x (effects (handle_message w cfg t p)) <-> w_hook w "before_handle" = Ok tt /\ In t (c_types cfg) /\ x = Handled t p.
Proof.
  unfold handle_message. rewrite eff_lift. setoid_rewrite unit_ok.
  match goal with |- (exists a : unit, ?A /\ ?B) <-> _ => transitivity (A /\ B); [split; [intros (_ & H); exact H|intros H; exists tt; exact H]|] end.
  rewrite <- in_types. apply and_iff_compat_l. destruct (existsb (String.eqb t) (c_types cfg)).
  - unfold cbind, lift. destruct (c_handle cfg t p) as [h|e]; cbn [ended effects mtype app].
    + destruct (complete w cfg t p h); cbn [ended effects mtype app]; [destruct (w_hook w "after_handle"); cbn [ended effects mtype app]|];
        (split; [intros [<-|[]]; auto|intros [_ ->]; now left]).
    + split; [intros [<-|[]]; auto|intros [_ ->]; now left].
  - unfold cbind, lift. cbn [ended effects mtype app]. destruct (w_hook w "after_handle"); cbn [ended effects mtype app]; (split; [intros []|intros [H _]; discriminate]).
Qed.

Lemma handler_effects w cfg rq : fst (handler w cfg rq) = effects (try_block w cfg rq).
Proof. reflexivity. Qed.

Theorem handled_iff w cfg rq t q : In (Handled t q) (fst (handler w cfg rq)) <-> may_handle w cfg rq t q.
Proof.
  rewrite handler_effects. unfold try_block, may_handle, arrives. rewrite eff_lift. split.
  - intros (a & H & I). apply check_content_ok in H. apply eff_lift in I as (body & HB & I). apply eff_lift in I as ([] & HK & I). apply eff_lift in I as ([] & HS & I).
    apply eff_lift in I as ([t' p] & HP & I). apply eff_bound in I as ([] & HR & I). apply eff_lift in I as (b & HV & I). apply check_vtn_ok in HV.
    apply eff_lift in I as (n & HN & I). apply eff_lift in I as ([] & HA & I). apply eff_lift in I as (q' & HF & I).
    assert (E : In (Handled t q) (effects (handle_message w cfg t' q'))).
    { unfold cbind in I. destruct (ended (handle_message w cfg t' q')); [|exact I]. cbn [effects] in I. unfold lift in I. cbn [effects] in I. rewrite app_nil_r in I. exact I. }
    apply handle_message_eff in E as (E1 & E2 & E3). injection E3 as <- <-. exists body, p. split; [auto 10|]. split; [destruct (String.eqb t "oadrResponse") eqn:Q; [discriminate|]; now apply String.eqb_neq|].
    split; [exact HV|]. split; [apply check_ven_ok; eauto|]. split; [apply (check_sender_iff _ _ _ _ _ _ _ HN); exact HA|]. split; [now apply add_fingerprint_iff|]. auto.
  - intros (body & p & (HC & HB & HK & HS & HP) & NR & HV & HN & HA & HF & HH & HT).
    exists tt. split; [now apply check_content_ok|]. apply eff_lift. exists body. split; [exact HB|]. apply eff_lift. exists tt. split; [exact HK|]. apply eff_lift. exists tt. split; [exact HS|].
    apply eff_lift. exists (t, p). split; [exact HP|]. apply eff_bound. exists tt. split; [apply String.eqb_neq in NR; now rewrite NR|]. apply eff_lift. exists tt. split; [now apply check_vtn_ok|].
    apply check_ven_ok in HN as [n HN]. apply eff_lift. exists n. split; [exact HN|]. apply eff_lift. exists tt. split; [now apply (check_sender_iff _ _ _ _ _ _ _ HN)|].
    apply eff_lift. exists q. split; [now apply add_fingerprint_iff|].
    assert (E : In (Handled t q) (effects (handle_message w cfg t q))) by (apply handle_message_eff; auto).
    unfold cbind. destruct (ended (handle_message w cfg t q)); [|exact E]. cbn [effects]. apply in_app_iff. now left.
Qed.

Lemma one_effect w cfg t p : (length (effects (handle_message w cfg t p)) <= 1)%nat.
Proof.
  unfold handle_message, cbind, lift. destruct (w_hook w "before_handle"); cbn [ended effects mtype app]; [|simpl; lia]. destruct (existsb _ _).
  - destruct (c_handle cfg t p) as [h|e]; cbn [ended effects mtype app]; [|simpl; lia]. destruct (complete w cfg t p h); cbn [ended effects mtype app]; [destruct (w_hook w "after_handle"); cbn [ended effects mtype app]|]; simpl; lia.
  - cbn [ended effects mtype app]. destruct (w_hook w "after_handle"); cbn [ended effects mtype app]; simpl; lia.
Qed.
Lemma length_lift {A B} (r : result A) (f : A -> comp B) k : (forall a, r = Ok a -> length (effects (f a)) <= k)%nat -> (length (effects (cbind (lift r) f)) <= k)%nat.
Proof. intros H. unfold cbind, lift. destruct r as [a|]; cbn [ended effects app length]; [apply H; reflexivity|lia]. Qed.
Lemma length_bound {A B} t (r : result A) (f : A -> comp B) k : (forall a, r = Ok a -> length (effects (f a)) <= k)%nat -> (length (effects (cbind (mk_comp [] t r) f)) <= k)%nat.
Proof. intros H. unfold cbind. destruct r as [a|]; cbn [ended effects app length]; [apply H; reflexivity|lia]. Qed.
Lemma handled_once w cfg rq : (length (fst (handler w cfg rq)) <= 1)%nat.
Proof.
  rewrite handler_effects. unfold try_block. do 4 (apply length_lift; intros ? _). apply length_lift. intros [t p] _. apply length_bound. intros ? _. do 4 (apply length_lift; intros ? _).
  unfold cbind. pose proof (one_effect w cfg t a7) as L. destruct (ended (handle_message w cfg t a7)); cbn [effects]; [|exact L]. unfold lift. cbn [effects]. rewrite app_nil_r. exact L.
Qed.

(** ** How a computation ends *)
Lemma lift_ok {A B} (r : result A) (f : A -> comp B) a : r = Ok a -> effects (cbind (lift r) f) = effects (f a) /\ mtype (cbind (lift r) f) = mtype (f a) /\ ended (cbind (lift r) f) = ended (f a).
Proof. intros ->. unfold cbind, lift. cbn [ended effects mtype app]. split; [reflexivity|]. split; [now destruct (mtype (f a))|reflexivity]. Qed.

(** The rest of the pipeline after the message has arrived. *)
Definition after_arrival (w : world) (cfg : config) (rq : request) (body t : string) (p : payload) : comp (string * payload) :=
  cbind (mk_comp [] (Some t) (if String.eqb t "oadrResponse" then Raise SendEmptyHTTPResponse else Ok tt)) (fun _ =>
  cbind (lift (check_vtn cfg p)) (fun _ => cbind (lift (check_ven cfg t p)) (fun n => cbind (lift (check_sender w cfg n rq body p)) (fun _ =>
  cbind (lift (add_fingerprint rq t p)) (fun p => cbind (handle_message w cfg t p) (fun r => lift (Ok (fst r, finish cfg p (snd r)))))))))  .

Lemma comp_eta {A} (c : comp A) : c = mk_comp (effects c) (mtype c) (ended c).
Proof. now destruct c. Qed.
Lemma cbind_lift_ok {A B} (a : A) (f : A -> comp B) : cbind (lift (Ok a)) f = f a.
Proof. unfold cbind, lift. cbn [ended effects mtype app]. rewrite (comp_eta (f a)) at 4. now destruct (mtype (f a)). Qed.
Lemma cbind_lift_raise {A B} e (f : A -> comp B) : cbind (lift (Raise e)) f = lift (Raise e).
Proof. reflexivity. Qed.

Lemma arrived w cfg rq body t p : arrives w rq body t p -> try_block w cfg rq = after_arrival w cfg rq body t p.
Proof.
  intros (HC & HB & HK & HS & HP). unfold try_block. apply (check_content_ok rq tt) in HC. rewrite HC, cbind_lift_ok, HB, cbind_lift_ok, HK, cbind_lift_ok, HS, cbind_lift_ok, HP, cbind_lift_ok. reflexivity.
Qed.
Lemma not_xml w cfg rq : ~ xml_content rq -> try_block w cfg rq = lift (Raise TypeError).
Proof.
  intros N. unfold try_block, check_content, xml_content in *. rewrite <- startswith_spec in N. destruct (startswith _ _); [elim N; reflexivity|]. apply cbind_lift_raise.
Qed.
Lemma bad_schema w cfg rq body e : xml_content rq -> rq_body rq = Ok body -> w_hook w "before_parse" = Ok tt -> w_schema w body = Raise e -> try_block w cfg rq = lift (Raise e).
Proof.
  intros HC HB HK HS. unfold try_block. apply (check_content_ok rq tt) in HC. rewrite HC, cbind_lift_ok, HB, cbind_lift_ok, HK, cbind_lift_ok, HS. apply cbind_lift_raise.
Qed.

Lemma bound_ok {A B} t (a : A) (f : A -> comp B) : mtype (cbind (mk_comp [] (Some t) (Ok a)) f) = match mtype (f a) with Some t => Some t | None => Some t end /\
  effects (cbind (mk_comp [] (Some t) (Ok a)) f) = effects (f a) /\ ended (cbind (mk_comp [] (Some t) (Ok a)) f) = ended (f a).
Proof. unfold cbind. cbn [ended effects mtype app]. auto. Qed.

(** After arrival, message_type is bound to [t]. *)
Lemma mtype_lift {A B} (r : result A) (f : A -> comp B) : (forall a, mtype (f a) = None) -> mtype (cbind (lift r) f) = None.
Proof. intros H. unfold cbind, lift. destruct r; cbn [ended mtype]; [now rewrite H|reflexivity]. Qed.
Lemma handle_message_mtype w cfg t p : mtype (handle_message w cfg t p) = None.
Proof.
  unfold handle_message. apply mtype_lift. intros _. unfold cbind at 1. 
  assert (X : mtype (if existsb (String.eqb t) (c_types cfg) then cbind (mk_comp [Handled t p] None (c_handle cfg t p)) (fun h => lift (complete w cfg t p h)) else lift (Ok (error_response "oadrResponse" 459 not_supported))) = None).
  { destruct (existsb _ _); [|reflexivity]. unfold cbind. destruct (c_handle cfg t p); reflexivity. }
  destruct (ended _); cbn [mtype]; [|exact X]. rewrite X, mtype_lift; [reflexivity|]. reflexivity.
Qed.
Lemma after_mtype w cfg rq body t p : mtype (after_arrival w cfg rq body t p) = Some t.
Proof.
  unfold after_arrival. unfold cbind at 1. cbn [ended mtype]. destruct (String.eqb t "oadrResponse"); [reflexivity|]. cbn [mtype].
  rewrite mtype_lift; [reflexivity|]. intros _. apply mtype_lift. intros n. apply mtype_lift. intros _. apply mtype_lift. intros q. unfold cbind.
  destruct (ended (handle_message w cfg t q)); cbn [mtype]; rewrite handle_message_mtype; reflexivity.
Qed.

(** Stage by stage. *)
Lemma after_response w cfg rq body p : after_arrival w cfg rq body "oadrResponse" p = mk_comp [] (Some "oadrResponse") (Raise SendEmptyHTTPResponse).
Proof. reflexivity. Qed.
Lemma after_ended w cfg rq body t p : t <> "oadrResponse" -> 
  let rest := cbind (lift (check_vtn cfg p)) (fun _ => cbind (lift (check_ven cfg t p)) (fun n => cbind (lift (check_sender w cfg n rq body p)) (fun _ =>
    cbind (lift (add_fingerprint rq t p)) (fun p => cbind (handle_message w cfg t p) (fun r => lift (Ok (fst r, finish cfg p (snd r)))))))) in
  effects (after_arrival w cfg rq body t p) = effects rest /\ ended (after_arrival w cfg rq body t p) = ended rest.
Proof.
  intros N. cbv zeta. unfold after_arrival. apply String.eqb_neq in N. rewrite N.
  match goal with |- context [cbind (mk_comp [] (Some t) (Ok tt)) ?f] => destruct (bound_ok t tt f) as (_ & A & B) end. rewrite A, B. auto.
Qed.

(** Case: the handler is called. *)
Lemma handled_ended w cfg rq t q body p : arrives w rq body t p -> t <> "oadrResponse" -> for_us cfg p -> registered_ven cfg t p ->
  (forall ven, rq_secure rq = true -> pget "ven_id" p = Some ven -> has_lookup cfg -> authentic w cfg rq body t ven) -> add_fingerprint rq t p = Ok q ->
  ended (try_block w cfg rq) = bind (ended (handle_message w cfg t q)) (fun r => Ok (fst r, finish cfg q (snd r))) /\ mtype (try_block w cfg rq) = Some t /\
  effects (try_block w cfg rq) = effects (handle_message w cfg t q).
Proof.
  intros AR NR HV HN HA HF. rewrite (arrived _ cfg _ _ _ _ AR), after_mtype. destruct (after_ended w cfg rq body t p NR) as [E1 E2]. rewrite E1, E2.
  apply (check_vtn_ok cfg p tt) in HV. rewrite HV, cbind_lift_ok. apply check_ven_ok in HN as [n HN]. rewrite HN, cbind_lift_ok.
  apply (check_sender_iff _ _ _ _ _ _ _ HN) in HA. rewrite HA, cbind_lift_ok, HF, cbind_lift_ok. unfold cbind. destruct (ended (handle_message w cfg t q)); cbn [ended effects mtype bind]; [|auto].
  unfold lift. cbn [effects ended]. rewrite app_nil_r. auto.
Qed.
Lemma handle_message_raises w cfg t q e : w_hook w "before_handle" = Ok tt -> In t (c_types cfg) -> c_handle cfg t q = Raise e -> ended (handle_message w cfg t q) = Raise e.
Proof.
  intros H I R. unfold handle_message. rewrite H, cbind_lift_ok. apply in_types in I. rewrite I. unfold cbind. rewrite R. reflexivity.
Qed.
Lemma handle_message_unsupported w cfg t q : w_hook w "before_handle" = Ok tt -> w_hook w "after_handle" = Ok tt -> ~ In t (c_types cfg) ->
  ended (handle_message w cfg t q) = Ok ("oadrResponse", [("response", Resp 459 not_supported None)]) /\ effects (handle_message w cfg t q) = [].
Proof.
  intros H K I. unfold handle_message. rewrite H, cbind_lift_ok. destruct (existsb (String.eqb t) (c_types cfg)) eqn:E; [apply in_types in E; contradiction|].
  rewrite cbind_lift_ok, K, cbind_lift_ok. split; reflexivity.
Qed.
Lemma send_ok w t p : sendable w -> t <> "oadrDistributeEvent" -> t <> "oadrRegisterReport" -> exists s, send w t p = Reply 200 (Message t p s).
Proof.
  intros [S _] A B. destruct (S t p) as [s E]. exists s. unfold send, create_message. apply String.eqb_neq in A, B. rewrite A, B. cbn [andb]. now rewrite E.
Qed.
Lemma handler_reply w cfg rq : sendable w -> snd (handler w cfg rq) = answer w (mtype (try_block w cfg rq)) (ended (try_block w cfg rq)).
Proof. intros [_ S]. unfold handler. cbn [snd]. rewrite S. now destruct (answer _ _ _). Qed.

(** ** HTTPError comes only from the environment *)
Lemma plain_ok {A} (a : A) : plain (Ok a).
Proof. intros s. discriminate. Qed.
Lemma plain_bind {A B} (r : result A) (f : A -> result B) : plain r -> (forall a, plain (f a)) -> plain (bind r f).
Proof. intros P F. destruct r as [a|e]; [apply F|]. intros s H. apply (P s). cbn [bind] in H. congruence. Qed.
Lemma plain_cbind {A B} (c : comp A) (f : A -> comp B) : plain (ended c) -> (forall a, plain (ended (f a))) -> plain (ended (cbind c f)).
Proof. intros P F. unfold cbind. destruct (ended c) as [a|e] eqn:E; cbn [ended]; [apply F|]. intros s H. apply (P s). congruence. Qed.
Lemma plain_catch {A} (r : result A) : plain r -> plain (catch_value r).
Proof. intros P. destruct r as [a|[]]; try exact P; discriminate. Qed.

Lemma try_plain w cfg rq : no_http_errors w cfg rq -> plain (ended (try_block w cfg rq)).
Proof.
  intros (P1 & P2 & P3 & P4 & P5 & P6 & P7 & P8 & P9 & P10 & P11). unfold try_block.
  apply plain_cbind; [unfold lift, check_content; cbn [ended]; destruct (startswith _ _); discriminate|]. intros _.
  apply plain_cbind; [exact P7|]. intros body. apply plain_cbind; [apply P6|]. intros _. apply plain_cbind; [apply P1|]. intros _. apply plain_cbind; [apply P2|]. intros [t p].
  apply plain_cbind; [cbn [ended]; destruct (String.eqb t _); discriminate|]. intros _.
  apply plain_cbind. { unfold lift, check_vtn. cbn [ended]. destruct (pget _ p); [|discriminate]. destruct (_ && _); discriminate. } intros _.
  apply plain_cbind.
  { unfold lift, check_ven. cbn [ended]. destruct (_ || _); [discriminate|]. destruct (pget _ p) as [v|]; [|discriminate]. destruct (c_ven_lookup cfg) as [f|] eqn:L; [|discriminate].
    apply plain_bind; [eapply P9; reflexivity|]. intros info. destruct info as [i|]; [destruct (get _ _ i) as [[]|]|]; discriminate. } intros n.
  apply plain_cbind.
  { unfold lift, check_sender. cbn [ended]. destruct (pget _ p) as [v|]; [|discriminate]. destruct (rq_secure rq); [|discriminate].
    assert (A : forall b, plain (authenticate w cfg n b rq body p)).
    { intros b. unfold authenticate. apply plain_bind; [exact P8|]. intros [con|]; [|discriminate]. apply plain_bind.
      - apply plain_catch. destruct b.
        + destruct (c_fp_lookup cfg) as [f|] eqn:L; [|discriminate]. apply plain_bind; [eapply P10; reflexivity|]. intros e. destruct (truthy e); discriminate.
        + destruct (c_ven_lookup cfg) as [f|] eqn:L; [|discriminate]. apply plain_bind; [eapply P9; reflexivity|]. intros [[|]|]; discriminate.
      - intros e. destruct (scalar_eqb e SNone); [discriminate|]. destruct (negb _); [discriminate|]. destruct (c_verify cfg); [|discriminate]. apply plain_bind; [apply P3|].
        intros sg. destruct (negb _); [discriminate|]. apply plain_catch. unfold validate_signature. apply plain_bind; [apply P4|]. intros _. apply P5. }
    destruct (c_fp_lookup cfg); [apply A|]. destruct (c_ven_lookup cfg); [apply A|discriminate]. } intros _.
  apply plain_cbind. { unfold lift, add_fingerprint. cbn [ended]. destruct (_ && _); [|discriminate]. apply plain_bind; [exact P8|]. discriminate. } intros q.
  apply plain_cbind; [|discriminate]. unfold handle_message. apply plain_cbind; [apply P6|]. intros _. apply plain_cbind.
  - destruct (existsb _ _); [|discriminate]. apply plain_cbind; [apply P11|]. intros h. unfold lift, complete. cbn [ended]. apply plain_bind; [destruct h as [|? []]; discriminate|]. intros [t' p']. discriminate.
  - intros r. apply plain_cbind; [apply P6|]. discriminate.
Qed.

Lemma answer_status w t r : plain r -> In (http_status (answer w t r)) [200; 400; 403; 500].
Proof.
  intros P. assert (S : forall t' q, In (http_status (send w t' q)) [200; 400; 403; 500]) by (intros; unfold send; destruct (create_message w t' q); simpl; auto).
  destruct r as [[t' q]|e]; [apply S|]. destruct e; cbn [answer]; try (simpl; auto; fail); try apply S.
  - elim (P status). reflexivity.
  - destruct t as [t|]; [|simpl; auto]. destruct (error_response t code description). apply S.
Qed.

Lemma sender_refused w cfg t n rq body p ven : check_ven cfg t p = Ok n -> rq_secure rq = true -> pget "ven_id" p = Some ven -> has_lookup cfg ->
  rq_cert rq = Ok None \/ (exists con fp, rq_cert rq = Ok (Some con) /\ on_file cfg t ven fp /\ con <> fp) -> check_sender w cfg n rq body p = Raise (ProtocolError 463 "").
Proof.
  intros N SEC V HL D. unfold check_sender. rewrite V, SEC.
  assert (E : match c_fp_lookup cfg, c_ven_lookup cfg with Some _, _ => authenticate w cfg n true rq body p | None, Some _ => authenticate w cfg n false rq body p | None, None => Ok tt end
      = authenticate w cfg n (if c_fp_lookup cfg then true else false) rq body p).
  { destruct (c_fp_lookup cfg) eqn:C1; [reflexivity|]. destruct (c_ven_lookup cfg) eqn:C2; [reflexivity|]. destruct HL; congruence. }
  rewrite E. unfold authenticate. destruct D as [D|(con & fp & D & F & NE)]; rewrite D; cbn [bind]; [reflexivity|].
  assert (PV : pget_none "ven_id" p = ven) by (unfold pget_none; now rewrite V). rewrite PV.
  apply (expected_iff cfg t n ven fp HL) in F. 2: { intros lookup L. eapply check_ven_number; eassumption. }
  rewrite F. cbn [catch_value bind]. change (scalar_eqb (SStr fp) SNone) with false. cbv iota.
  assert (Q : scalar_eqb (SStr con) (SStr fp) = false) by (apply scalar_eqb_neq; congruence). rewrite Q. reflexivity.
Qed.
Lemma handle_message_returns w cfg t q h r : w_hook w "before_handle" = Ok tt -> w_hook w "after_handle" = Ok tt -> In t (c_types cfg) -> c_handle cfg t q = Ok h -> complete w cfg t q h = Ok r ->
  ended (handle_message w cfg t q) = Ok r.
Proof.
  intros H K I C R. unfold handle_message. rewrite H, cbind_lift_ok. apply in_types in I. rewrite I. unfold cbind, lift. cbn [ended]. rewrite C. cbn [ended]. rewrite R. cbn [ended]. rewrite K. reflexivity.
Qed.

(** ** C68 *)
Lemma pget_set k k' v p : pget k (pset k' v p) = if String.eqb k k' then Some v else pget k p.
Proof. unfold pget, pset. apply (get_set String.eqb String.eqb_eq). Qed.
Lemma pget_set_other k k' v p : k <> k' -> pget k (pset k' v p) = pget k p.
Proof. intros N. rewrite pget_set. apply String.eqb_neq in N. now rewrite N. Qed.
Definition dressed (w : world) (cfg : config) (q given : payload) : payload :=
  let p := pset "vtn_id" (Val (c_vtn cfg)) given in
  let p := match pget "ven_id" q with
           | Some v => if mtruthy (pget_none "ven_id" p) then p else pset "ven_id" v p
           | None => p
           end in
  pset "request_id" (Val (SStr (w_id w))) (pset "response" (Resp 200 "OK" (Some (pget_none "request_id" q))) p).
Lemma dressed_spec w cfg q given : let p := dressed w cfg q given in
    pget "response" p = Some (Resp 200 "OK" (Some (match pget "request_id" q with Some r => r | None => Val SNone end))) /\
    pget "request_id" p = Some (Val (SStr (w_id w))) /\ pget "vtn_id" p = Some (Val (c_vtn cfg)) /\
    addressed q given (match pget "ven_id" p with Some x => x | None => pget_none "ven_id" q end) /\
    (forall k, k <> "response" -> k <> "request_id" -> k <> "vtn_id" -> k <> "ven_id" -> pget k p = pget k given).
Proof.
  cbv zeta. unfold dressed, addressed, pget_none. rewrite !(pget_set_other "ven_id" "vtn_id") by discriminate.
  destruct (pget "ven_id" q) as [a|] eqn:A.
  - destruct (pget "ven_id" given) as [g|] eqn:G.
    + destruct (mtruthy g) eqn:T.
      * rewrite !pget_set. cbn [String.eqb Ascii.eqb Bool.eqb]. rewrite G. repeat (split; [reflexivity|]). split; [left; eauto|]. intros k N1 N2 N3 N4. now rewrite !pget_set_other by assumption.
      * rewrite !pget_set. cbn [String.eqb Ascii.eqb Bool.eqb]. repeat (split; [reflexivity|]). split; [right; left; split; [congruence|reflexivity]|]. intros k N1 N2 N3 N4. now rewrite !pget_set_other by assumption.
    + change (mtruthy none) with false. cbv iota. rewrite !pget_set. cbn [String.eqb Ascii.eqb Bool.eqb]. repeat (split; [reflexivity|]). split; [right; left; split; [discriminate|reflexivity]|]. intros k N1 N2 N3 N4. now rewrite !pget_set_other by assumption.
  - rewrite !pget_set. cbn [String.eqb Ascii.eqb Bool.eqb]. repeat (split; [reflexivity|]). split.
    + destruct (pget "ven_id" given) as [g|] eqn:G.
      * destruct (mtruthy g) eqn:T; [left; eauto|]. right. right. left. eauto.
      * right. right. right. auto.
    + intros k N1 N2 N3 N4. now rewrite !pget_set_other by assumption.
Qed.
Lemma completed w cfg t q h t' given : gives h t' given -> complete w cfg t q h = Ok (t', dressed w cfg q given).
Proof. unfold complete. intros [(-> & -> & ->)|[(-> & ->)| ->]]; reflexivity. Qed.
Lemma finished cfg q p r n : pget "response" p = Some r -> pget "vtn_id" p = Some (Val (c_vtn cfg)) -> match pget "ven_id" p with Some x => x | None => pget_none "ven_id" q end = n ->
  pget "ven_id" (finish cfg q p) = Some n /\ pget "vtn_id" (finish cfg q p) = Some (Val (c_vtn cfg)) /\ (forall k, k <> "vtn_id" -> k <> "ven_id" -> pget k (finish cfg q p) = pget k p).
Proof.
  intros R V <-. unfold finish. rewrite R. rewrite (pget_set_other "ven_id" "vtn_id") by discriminate. destruct (pget "ven_id" p) as [x|] eqn:E.
  - rewrite (pget_set_other "ven_id" "vtn_id") by discriminate. split; [exact E|]. split; [now rewrite pget_set|]. intros k N _. now apply pget_set_other.
  - split; [now rewrite pget_set|]. split; [rewrite (pget_set_other "vtn_id" "ven_id") by discriminate; now rewrite pget_set|].
    intros k N N'. now rewrite !pget_set_other by assumption.
Qed.
Lemma send_lists w t p : sendable w -> has_lists t p -> exists s, send w t p = Reply 200 (Message t p s).
Proof.
  intros [S _] [A B]. destruct (S t p) as [s E]. exists s. unfold send, create_message, mem. unfold pget in A, B.
  destruct (String.eqb t "oadrDistributeEvent") eqn:T1.
  - apply String.eqb_eq in T1. destruct (A T1) as [x X]. rewrite X. subst t. cbn. now rewrite E.
  - destruct (String.eqb t "oadrRegisterReport") eqn:T2.
    + apply String.eqb_eq in T2. destruct (B T2) as [x X]. rewrite X. subst t. cbn. now rewrite E.
    + cbn [andb]. now rewrite E.
Qed.
