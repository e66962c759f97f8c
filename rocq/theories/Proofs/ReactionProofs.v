(** What a VEN makes of payloads with the members that the schema asks for. *)
From Coq Require Import ZArith String Ascii List Bool Lia Arith.
From Verif.Base Require Import Result Dict PyStr ListExtra.
From Verif.Model Require Import Duration DateTime Text Normalize Xml XmlText Schema SchemaTypes.
From Verif.Model Require Import Polled.
From Verif.Model Require ClientEvents VtnService.
From Verif.Spec Require Import Timestamp TextSpec MessageSpec ReadableSpec ClientEventSpec PolledSpec.
From Verif.Proofs Require Import DateTimeProofs TextProofs NormalizeProofs CalmProofs ReadableProofs MemberProofs EventMemberProofs PolledProofs.
From Verif.Proofs Require ClientEventProofs.
Import ListNotations.
Local Open Scope string_scope.

Lemma item_get k d x : vget k d = Some x -> item k (VDict d) = Ok x.
Proof. unfold item. now intros ->. Qed.
Lemma same_refl a : same a a = true.
Proof. unfold same. now destruct (VtnService.val_eq_dec a a). Qed.
Lemma same_eq a b : same a b = true <-> a = b.
Proof. unfold same. destruct (VtnService.val_eq_dec a b); split; intros; congruence. Qed.

(** ** Requests for reports *)
(** What is in a request. *)
Record asks (r : val) (d : vdict) (id sid : val) (ps : list val) : Prop := mk_asks {
  as_dict : r = VDict d;
  as_id : vget "report_request_id" d = Some id;
  as_spec : exists s g b, vget "report_specifier" d = Some (VDict s) /\ vget "report_specifier_id" s = Some sid /\ scalar_val sid = true
     /\ vget "granularity" s = Some (VDur g) /\ vget "report_back_duration" s = Some (VDur b) /\ vget "specifier_payloads" s = Some (VList ps)
     /\ (vmem "report_interval" s = false \/ exists i t, vget "report_interval" s = Some (VDict i) /\ vget "dtstart" i = Some t);
  as_some : ps <> [];
  as_payloads : Forall (fun p => exists z r, p = VDict z /\ vget "r_id" z = Some r /\ vmem "measurement" z = false) ps }.
Lemma asks_of W r : request_read W r -> exists d id sid ps, asks r d id sid ps /\ (W -> worded sid).
Proof.
  intros [_ (d & -> & TH & _)]. destruct (Forall_inv TH) as (id & GI & _). destruct (Forall_inv (Forall_inv_tail TH)) as (sp & GS & KS). cbn [f_out f_done a_scalar a_dict] in *.
  assert (X : exists s, sp = VDict s /\ there (spec_fields W) s /\ (vmem "report_interval" s = false \/ exists i t, vget "report_interval" s = Some (VDict i) /\ vget "dtstart" i = Some t)).
  { destruct KS as [(s & -> & T & O & F)|(s & -> & T & O & F)]; exists s; (split; [reflexivity|]).
    - split; [exact T|]. left. exact (only_not spec_keys "report_interval" s O F eq_refl).
    - split; [exact (Forall_inv_tail T)|]. right. destruct (Forall_inv T) as (i & GI' & _ & (iy & -> & TI & _)). destruct (Forall_inv TI) as (t & GT & _). exists iy, t. now split. }
  destruct X as (s & -> & T & LI). destruct (Forall_inv T) as (sid & G1 & S1 & W1). apply Forall_inv_tail in T. destruct (Forall_inv T) as (g & G2 & z2 & ->). apply Forall_inv_tail in T.
  destruct (Forall_inv T) as (b & G3 & z3 & ->). apply Forall_inv_tail in T. destruct (Forall_inv T) as (pl & G4 & ps & -> & NE & FP).
  exists d, id, sid, ps. split; [|exact W1]. split; [reflexivity | exact GI | exists s, z2, z3; now repeat (split; [assumption|]) | exact NE|].
  eapply Forall_impl; [|exact FP]. intros p [_ (z & -> & TZ & OZ & FZ)]. destruct (Forall_inv TZ) as (r & GR & _). exists z, r. split; [reflexivity|]. split; [exact GR|]. exact (only_not specified_keys "measurement" z OZ FZ eq_refl).
Qed.
Section React.
Context (v : ven).
Lemma collects os ps : Forall (fun p => exists z r, p = VDict z /\ vget "r_id" z = Some r /\ vmem "measurement" z = false) ps ->
  forall single ids g, exists single' ids', foldM (collect os) ps (single, ids, VDur g) = Ok (single', ids', VDur g).
Proof.
  induction 1 as [|p ps (z & r & -> & G & M) _ IH]; intros single ids g; [now exists single, ids|]. cbn [foldM].
  assert (X : exists single' ids', collect os (single, ids, VDur g) (VDict z) = Ok (single', ids', VDur g)).
  { unfold collect. rewrite (item_get _ _ _ G). cbn [bind]. destruct (find _ os) as [o|]; [|eauto]. unfold fits, Polled.within. rewrite M. cbn [bind negb]. destruct g; [eauto| |]; (destruct (_ && _)%bool; eauto). }
  destruct X as (s' & i' & ->). cbn [bind]. apply IH.
Qed.
Definition plan_fits (r : val) (code code' : Z) (pl : plan) : Prop := for_request r pl /\ (code' = if match pl with Refused => true | _ => false end then 452%Z else code).
Lemma one_request r d id sid ps st : asks r d id sid ps ->
  let '(code, single, ids, plans) := st in
  match sid with
  | VStr s => exists code' single' ids' pl, request_one v st r = Ok (code', single', ids', (plans ++ [pl])%list) /\ plan_fits r code code' pl
  | _ => request_one v st r = Raise TypeError
  end.
Proof.
  destruct st as [[[code single] ids] plans]. intros [-> GI (s & g & b & G1 & G2 & S2 & G3 & G4 & G5 & LI) NE FP]. destruct ps as [|p0 ps]; [now contradiction NE|].
  pose proof (Forall_inv FP) as (z & r0 & -> & GR & _).
  assert (U : request_one v (code, single, ids, plans) (VDict d) = bind (Polled.within "INVALID" sid) (fun bad =>
      if bad || match r0 with VStr s => contains "INVALID" s | _ => false end then Ok (452%Z, single, ids, (plans ++ [Refused])%list) else
      match v_reports v sid with
      | None => Ok (code, single, ids, (plans ++ [Unoffered id])%list)
      | Some os => bind (foldM (collect os) (VDict z :: ps) (single, ids, VDur g)) (fun '(single, ids, granularity) =>
         bind (if single then Ok None else Ok (if (0 <? b)%Z then Some b else None)) (fun every => match every with
         | Some b => Ok (code, single, ids, (plans ++ [Repeated id ids (match granularity with VDur 0 | VNone => b | VDur g => g | _ => b end)])%list)
         | None => bind (Polled.within "report_interval" (VDict s)) (fun later =>
            if later then bind (item "report_interval" (VDict s)) (fun i => bind (item "dtstart" i) (fun t => Ok (code, single, ids, (plans ++ [Later id ids t])%list)))
            else Ok (code, single, ids, (plans ++ [Once id ids])%list)) end))
      end)).
  { unfold request_one. rewrite (item_get _ _ _ G1). cbn [bind]. rewrite (item_get _ _ _ G5). cbn [bind elements]. rewrite (item_get _ _ _ GR). cbn [bind]. rewrite (item_get _ _ _ G2). cbn [bind].
    destruct (Polled.within "INVALID" sid) as [bad|]; [|reflexivity]. cbn [bind]. destruct (bad || _)%bool; [reflexivity|]. rewrite (item_get _ _ _ GI). cbn [bind]. rewrite G4, (item_get _ _ _ G3). cbn [bind].
    destruct (v_reports v sid); reflexivity. }
  rewrite U. clear U. destruct sid as [| | | |str| | | |]; try discriminate S2; try reflexivity. cbn [Polled.within bind].
  destruct (_ || _)%bool; [exists 452%Z, single, ids, Refused; now repeat split|].
  destruct (v_reports v (VStr str)) as [os|]; [|exists code, single, ids, (Unoffered id); now repeat split].
  destruct (collects os (VDict z :: ps) FP single ids g) as (s' & i' & ->). cbn [bind].
  assert (X : exists e, (if s' then Ok None else Ok (if (0 <? b)%Z then Some b else None)) = Ok e) by (destruct s'; eauto). destruct X as [e ->]. cbn [bind]. destruct e as [b'|].
  - exists code, s', i'. eexists. split; [reflexivity|]. now split.
  - cbn [Polled.within]. destruct LI as [LI|(i & t & L1 & L2)].
    + rewrite LI. cbn [bind]. exists code, s', i'. eexists. split; [reflexivity|]. now split.
    + assert (VM : vmem "report_interval" s = true) by (unfold vmem, mem; unfold vget in L1; now rewrite L1). rewrite VM. cbn [bind]. rewrite (item_get _ _ _ L1). cbn [bind]. rewrite (item_get _ _ _ L2). cbn [bind].
      exists code, s', i'. eexists. split; [reflexivity|]. now split.
Qed.
Definition asking (r : val) : Prop := exists d id sid ps, asks r d id sid ps.
Lemma asking_sid r d id sid ps : asks r d id sid ps -> specifier_of r = Some sid /\ request_id_of r = Some id.
Proof. intros [-> GI (s & g & b & G1 & G2 & _) _ _]. unfold specifier_of, request_id_of. rewrite G1, G2. now split. Qed.
Definition refused (plans : list plan) : bool := existsb (fun p => match p with Refused => true | _ => false end) plans.
Lemma all_requests rs : Forall asking rs -> (forall r, In r rs -> in_text (specifier_of r)) -> forall code single ids plans,
  exists code' single' ids' new, foldM (request_one v) rs (code, single, ids, plans) = Ok (code', single', ids', (plans ++ new)%list) /\ Forall2 for_request rs new /\ code' = if refused new then 452%Z else code.
Proof.
  induction 1 as [|r rs (d & id & sid & ps & A) _ IH]; intros T code single ids plans.
  - exists code, single, ids, []. rewrite app_nil_r. now repeat split.
  - cbn [foldM]. pose proof (one_request r d id sid ps (code, single, ids, plans) A) as O. destruct (asking_sid _ _ _ _ _ A) as [E1 _]. destruct (T r (or_introl eq_refl)) as [s E]. rewrite E1 in E. injection E as ->.
    cbv beta iota in O. destruct O as (c1 & s1 & i1 & pl & O & F & C). rewrite O. cbn [bind]. destruct (IH (fun r' I => T r' (or_intror I)) c1 s1 i1 (plans ++ [pl])%list) as (c2 & s2 & i2 & new & E2 & F2 & C2).
    exists c2, s2, i2, (pl :: new). rewrite E2. split; [now rewrite <- app_assoc|]. split; [now constructor|]. cbn [refused existsb]. fold (refused new). rewrite C2, C. destruct (refused new); [now rewrite orb_true_r|]. now rewrite orb_false_r.
Qed.
Lemma bad_request rs : Forall asking rs -> (exists r, In r rs /\ ~ in_text (specifier_of r)) -> forall st, foldM (request_one v) rs st = Raise TypeError.
Proof.
  induction 1 as [|r rs (d & id & sid & ps & A) _ IH]; intros (r' & I & N) st; [destruct I|]. cbn [foldM]. pose proof (one_request r d id sid ps st A) as O. destruct st as [[[code single] ids] plans].
  destruct (asking_sid _ _ _ _ _ A) as [E1 _]. destruct sid as [| | | |s| | | |]; try (rewrite O; reflexivity). destruct O as (c1 & s1 & i1 & pl & O & _). rewrite O. cbn [bind]. apply IH. destruct I as [<-|I]; [|now exists r'].
  exfalso. apply N. now exists s.
Qed.
Lemma ids_of rs : Forall asking rs -> exists ids, mapM (item "report_request_id") rs = Ok ids /\ map Some ids = map request_id_of rs.
Proof.
  induction 1 as [|r rs (d & id & sid & ps & A) _ (ids & M & E)]; [now exists []|]. exists (id :: ids). destruct (asking_sid _ _ _ _ _ A) as [_ E2]. cbn [mapM map]. rewrite M, E2, E. destruct A as [-> GI _ _ _]. rewrite (item_get _ _ _ GI). now split.
Qed.
Lemma text_or_not (rs : list val) : (forall r, In r rs -> in_text (specifier_of r)) \/ exists r, In r rs /\ ~ in_text (specifier_of r).
Proof.
  induction rs as [|r rs [IH|(r' & J & N)]]; [left; intros ? [] | |right; exists r'; split; [now right | exact N]].
  assert (D : in_text (specifier_of r) \/ ~ in_text (specifier_of r)) by (destruct (specifier_of r) as [[| | | |s| | | |]|]; try (right; intros [? E]; discriminate E); left; now exists s).
  destruct D as [D|D]; [left; intros r' [<-|I']; [exact D | now apply IH] | right; exists r; split; [now left | exact D]].
Qed.
Lemma creates p rs q : vget "report_requests" p = Some (VList rs) -> Forall asking rs ->
  (vget "request_id" p = Some q \/ vmem "request_id" p = false /\ exists d, vget "response" p = Some (VDict d) /\ vget "request_id" d = Some q) ->
  ((forall r, In r rs -> in_text (specifier_of r)) ->
     exists plans ids, create_report v (VDict p) = Ok (Creates (if refused plans then 452 else 200) plans ids q) /\ Forall2 for_request rs plans /\ map Some ids = map request_id_of rs)
  /\ ((exists r, In r rs /\ ~ in_text (specifier_of r)) -> create_report v (VDict p) = Raise TypeError).
Proof.
  intros G A Q. unfold create_report. rewrite (item_get _ _ _ G). cbn [bind elements]. split.
  - intros T. destruct (all_requests rs A T 200%Z false [] []) as (c & s & i & new & -> & F & ->). cbn [bind app]. destruct (ids_of rs A) as (ids & -> & E). cbn [bind Polled.within].
    exists new, ids. split; [|now split]. destruct Q as [Q|(M & d & Q1 & Q2)].
    + assert (VM : vmem "request_id" p = true) by (unfold vmem, mem; unfold vget in Q; now rewrite Q). rewrite VM. cbn [bind]. rewrite (item_get _ _ _ Q). reflexivity.
    + rewrite M. cbn [bind]. rewrite (item_get _ _ _ Q1). cbn [bind]. rewrite (item_get _ _ _ Q2). reflexivity.
  - intros B. rewrite (bad_request rs A B). reflexivity.
Qed.
End React.

(** ** Events *)
Record tells (T : Prop) (e : val) : Prop := mk_tells {
  te_answer : exists r, member "response_required" e = Some r;
  te_described : exists d id n s, member "event_descriptor" e = Some (VDict d) /\ vget "event_id" d = Some id /\ vget "modification_number" d = Some n /\ vget "event_status" d = Some s;
  te_period : exists a t z, member "active_period" e = Some (VDict a) /\ vget "dtstart" a = Some t /\ (T -> exists u, t = VTime u) /\ vget "duration" a = Some (VDur z);
  te_signals : exists s l, member "event_signals" e = Some s /\ (s = VList l \/ exists y, s = VDict y /\ vget "event_signals" y = Some (VList l))
     /\ Forall (fun i => exists z n, i = VDict z /\ vget "signal_name" z = Some n) l }.
Lemma tells_of T e : event_read T e -> tells T e.
Proof.
  intros [_ (d & -> & TH & _)]. destruct (Forall_inv TH) as (r & GR & _). apply Forall_inv_tail in TH. destruct (Forall_inv TH) as (de & GD & _ & (dd & -> & TD & _)). apply Forall_inv_tail in TH.
  destruct (Forall_inv TH) as (ap & GA & _ & (aa & -> & TA & _)). apply Forall_inv_tail in TH. destruct (Forall_inv TH) as (sg & GS & KS). split; cbn [member].
  - now exists r.
  - destruct (Forall_inv TD) as (id & G1 & _). apply Forall_inv_tail in TD. destruct (Forall_inv TD) as (n & G2 & _). apply Forall_inv_tail in TD. destruct (Forall_inv TD) as (s & G3 & _). exists dd, id, n, s. now repeat split.
  - destruct (Forall_inv TA) as (t & G1 & _ & HT). apply Forall_inv_tail in TA. destruct (Forall_inv TA) as (z & G2 & u & ->). exists aa, t, u. now repeat split.
  - assert (L : forall w, listed a_signal w -> exists l, w = VList l /\ Forall (fun i => exists z n, i = VDict z /\ vget "signal_name" z = Some n) l).
    { intros w (l & -> & _ & F). exists l. split; [reflexivity|]. eapply Forall_impl; [|exact F]. intros i [_ (z & -> & TZ & _)]. destruct (Forall_inv TZ) as (n & G & _). now exists z, n. }
    destruct KS as [KS|(y & w & -> & G & KS)]; destruct (L _ KS) as (l & -> & F).
    + exists (VList l), l. split; [exact GS|]. split; [now left | exact F].
    + exists (VDict y), l. split; [exact GS|]. split; [right; now exists y | exact F].
Qed.
Lemma member_item k e x : member k e = Some x -> item k e = Ok x.
Proof. destruct e; try discriminate. apply item_get. Qed.
Section Events.
Context (v : ven) (OB : obliging v).
Lemma decides T e : tells T e -> exists o, decide v e = Ok o.
Proof.
  intros [_ (d & id & n & s & M & G1 & G2 & G3) _ _]. unfold decide. rewrite (member_item _ _ _ M). cbn [bind]. rewrite (item_get _ _ _ G1). cbn [bind]. rewrite (item_get _ _ _ G3). cbn [bind]. rewrite (item_get _ _ _ G2). cbn [bind]. apply (proj1 OB).
Qed.
Lemma all_decided T es : Forall (tells T) es -> exists os, mapM (decide v) es = Ok os /\ length os = length es.
Proof.
  induction 1 as [|e es H _ (os & M & L)]; [now exists []|]. destruct (decides T e H) as [o O]. exists (o :: os). cbn [mapM]. rewrite O, M. cbn. now rewrite L.
Qed.
Lemma all_checked T es os : Forall (tells T) es -> length os = length es -> exists os', Polled.both checked es os = Ok os' /\ length os' = length es.
Proof.
  intros F. revert os. induction F as [|e es H _ IH]; intros [|o os] L; try discriminate L; [now exists []|]. injection L as L. destruct (IH os L) as (os' & B & L').
  assert (C : exists o', checked e o = Ok o'). { unfold checked. destruct (a_choice o); [eauto|]. destruct (te_answer T e H) as [r M]. rewrite (member_item _ _ _ M). cbn [bind]. eauto. }
  destruct C as [o' C]. exists (o' :: os'). cbn [Polled.both]. rewrite C, B. cbn. now rewrite L'.
Qed.
Lemma vtn_fine p : vtn_checked (VDict p) = Ok tt <-> proper p.
Proof.
  unfold vtn_checked, proper, item. destruct (vget "vtn_id" p) as [w|]; cbn [bind]; [|split; [discriminate | intros (? & [=] & _)]].
  destruct w as [| | | |s| | | |]; try (split; [discriminate | intros (? & [=] & _)]). destruct (ClientEvents.islower s) eqn:E.
  - split; [discriminate|]. intros (? & [= <-] & N). exfalso. apply N. now apply ClientEventProofs.islower_iff.
  - split; [|reflexivity]. intros _. exists s. split; [reflexivity|]. intros L. apply ClientEventProofs.islower_iff in L. congruence.
Qed.
Lemma results_of T p es : Forall (tells T) es -> exists c os, results v (VDict p) es = (c, os) /\ length os = length es /\ (c = None <-> proper p).
Proof.
  intros F. destruct (all_decided T es F) as (os & M & L). destruct (all_checked T es os F L) as (os' & B & L'). unfold results.
  destruct (vtn_checked (VDict p)) as [[]|x] eqn:V; cbn [bind].
  - rewrite M. cbn [bind]. rewrite B. exists None, os'. split; [reflexivity|]. split; [exact L'|]. split; [|reflexivity]. intros _. now apply vtn_fine.
  - exists (Some x), (map (fun _ => VStr "optOut") es). split; [reflexivity|]. split; [apply map_length|]. split; [discriminate|]. intros P. apply vtn_fine in P. congruence.
Qed.
Lemma signals_coded l : Forall (fun i => exists z n, i = VDict z /\ vget "signal_name" z = Some n) l -> exists c, signal_code l = Ok c.
Proof.
  induction 1 as [|i l (z & n & -> & G) _ (c & IH)]; [now exists 200%Z|]. cbn [signal_code]. rewrite (item_get _ _ _ G). cbn [bind]. destruct (existsb _ _); eauto.
Qed.
Lemma replied T p e o q : tells T e -> vget "request_id" p = Some q ->
  (to_answer e -> begins e -> exists rs, reply_to v (VDict p) e o = Ok rs /\ (is_over v e -> rs = []) /\ (~ is_over v e -> exists r, rs = [r] /\ about e r /\ r_opt r = o))
  /\ (to_answer e -> ~ begins e -> reply_to v (VDict p) e o = Raise AttributeError)
  /\ (~ to_answer e -> reply_to v (VDict p) e o = Ok []).
Proof.
  intros [(r & M) (d & id & n & s & D & D1 & D2 & _) (a & t & z & A & A1 & _ & A2) (sg & l & G & GL & F)] Q. unfold reply_to. rewrite (member_item _ _ _ M). cbn [bind]. unfold to_answer. rewrite M.
  split; [|split].
  - intros [= ->] (a' & t' & B1 & B2). rewrite A in B1. injection B1 as <-. cbn [member] in B2. rewrite A1 in B2. injection B2 as ->. rewrite same_refl, (member_item _ _ _ A). cbn [bind]. unfold completed. rewrite (item_get _ _ _ A1). cbn [bind]. rewrite (item_get _ _ _ A2). cbn [bind].
    destruct (proj2 OB t' z) as [b OV]. rewrite OV. cbn [bind]. assert (OI : is_over v e <-> b = true).
    { split.
      - intros (a2 & t2 & d2 & E1 & E2 & E3 & E4). rewrite A in E1. injection E1 as <-. cbn [member] in *. rewrite A1 in E2. rewrite A2 in E3. injection E2 as <-. injection E3 as <-. congruence.
      - intros ->. exists (VDict a), t', z. now repeat split. }
    destruct b.
    + exists []. split; [reflexivity|]. split; [reflexivity|]. intros NO. exfalso. apply NO. now apply OI.
    + rewrite (member_item _ _ _ G). cbn [bind]. assert (SL : match sg with VList l => Ok l | s => bind (item "event_signals" s) elements end = Ok l).
      { destruct GL as [->|(y & -> & GY)]; [reflexivity|]. rewrite (item_get _ _ _ GY). reflexivity. }
      rewrite SL. cbn [bind]. destruct (signals_coded l F) as [c ->]. cbn [bind]. rewrite (item_get _ _ _ Q). cbn [bind]. rewrite (member_item _ _ _ D). cbn [bind]. rewrite (item_get _ _ _ D2). cbn [bind]. rewrite (item_get _ _ _ D1). cbn [bind].
      eexists. split; [reflexivity|]. split; [intros O; apply OI in O; discriminate O|]. intros _. eexists. split; [reflexivity|]. split; [|reflexivity]. exists (VDict d). now repeat split.
  - intros [= ->] NB. rewrite same_refl, (member_item _ _ _ A). cbn [bind]. unfold completed. rewrite (item_get _ _ _ A1). cbn [bind]. destruct t; try reflexivity. exfalso. apply NB. exists (VDict a), t. now split.
  - intros N. destruct (same r (VStr "always")) eqn:S; [|reflexivity]. apply same_eq in S. subst r. now contradiction N.
Qed.
Lemma answer_dec T e : tells T e -> to_answer e \/ ~ to_answer e.
Proof. intros [(r & M) _ _ _]. unfold to_answer. rewrite M. destruct (VtnService.val_eq_dec r (VStr "always")) as [->|N]; [now left | right; congruence]. Qed.
Lemma begins_dec T e : tells T e -> begins e \/ ~ begins e.
Proof.
  intros [_ _ (a & t & z & A & A1 & _) _]. destruct t as [| | | | |u| | |]; try (right; intros (a' & t' & B1 & B2); rewrite A in B1; injection B1 as <-; cbn [member] in B2; rewrite A1 in B2; discriminate B2).
  left. exists (VDict a), u. now split.
Qed.
Lemma over_dec T e : tells T e -> is_over v e \/ ~ is_over v e.
Proof.
  intros [_ _ (a & t & z & A & A1 & _ & A2) _]. assert (N : (forall u, t = VTime u -> v_over v u z <> Ok true) -> ~ is_over v e).
  { intros H (a2 & t2 & d2 & E1 & E2 & E3 & E4). rewrite A in E1. injection E1 as <-. cbn [member] in *. rewrite A1 in E2. rewrite A2 in E3. injection E2 as ->. injection E3 as <-. now apply (H t2). }
  destruct t as [| | | | |u| | |]; try (right; apply N; intros u [=]). destruct (proj2 OB u z) as [[] O].
  - left. exists (VDict a), u, z. now repeat split.
  - right. apply N. intros u' [= <-]. congruence.
Qed.
Lemma all_replied T p q es : Forall (tells T) es -> vget "request_id" p = Some q -> (forall e, In e es -> to_answer e -> begins e) -> forall os, length os = length es ->
  exists rs, replies v (VDict p) es os = Ok rs /\ (forall r, In r rs -> exists e, In e es /\ to_answer e /\ ~ is_over v e /\ about e r) /\ (forall e, In e es -> to_answer e -> ~ is_over v e -> exists r, In r rs /\ about e r).
Proof.
  intros F Q. induction F as [|e es H F IH]; intros B [|o os] L; try discriminate L.
  - exists []. split; [reflexivity|]. split; [intros ? [] | intros ? []].
  - injection L as L. destruct (IH (fun e' I => B e' (or_intror I)) os L) as (rs & E & R1 & R2). cbn [replies]. destruct (replied T p e o q H Q) as (A1 & _ & A3).
    destruct (answer_dec T e H) as [TA|NA].
    + destruct (A1 TA (B e (or_introl eq_refl) TA)) as (a & E1 & O1 & O2). rewrite E1, E. cbn [bind]. exists (a ++ rs)%list. split; [reflexivity|]. split.
      * intros r I. apply in_app_or in I as [I|I]; [|destruct (R1 r I) as (e' & J & K); exists e'; split; [now right | exact K]].
        destruct (over_dec T e H) as [O|NO]; [rewrite (O1 O) in I; destruct I|]. destruct (O2 NO) as (r' & -> & AB & _). destruct I as [<-|[]]. exists e. now repeat split; try left.
      * intros e' [<-|J] TA' NO; [|destruct (R2 e' J TA' NO) as (r & I & AB); exists r; split; [apply in_or_app; now right | exact AB]].
        destruct (O2 NO) as (r' & -> & AB & _). exists r'. split; [now left | exact AB].
    + rewrite (A3 NA), E. cbn [bind app]. exists rs. split; [reflexivity|]. split.
      * intros r I. destruct (R1 r I) as (e' & J & K). exists e'. split; [now right | exact K].
      * intros e' [<-|J] TA' NO; [contradiction | now apply R2].
Qed.
Lemma none_replied T p q es : Forall (tells T) es -> vget "request_id" p = Some q -> (exists e, In e es /\ to_answer e /\ ~ begins e) -> forall os, length os = length es -> replies v (VDict p) es os = Raise AttributeError.
Proof.
  intros F Q. induction F as [|e es H F IH]; intros (e' & I & TA & NB) [|o os] L; try discriminate L; [destruct I|]. injection L as L. cbn [replies]. destruct (replied T p e o q H Q) as (A1 & A2 & A3).
  destruct (answer_dec T e H) as [TE|NE]; [destruct (begins_dec T e H) as [BE|NBE]|].
  - destruct (A1 TE BE) as (a & -> & _). cbn [bind]. destruct I as [<-|I]; [contradiction|]. rewrite IH; [reflexivity | now exists e' | exact L].
  - rewrite (A2 TE NBE). reflexivity.
  - rewrite (A3 NE). cbn [bind]. destruct I as [<-|I]; [contradiction|]. rewrite IH; [reflexivity | now exists e' | exact L].
Qed.
(** What comes of events. *)
Lemma on_events T p q es : vget "events" p = Some (VList es) -> Forall (tells T) es -> vget "request_id" p = Some q ->
  ((forall e, In e es -> to_answer e -> begins e) ->
     exists c rs, on_event v (VDict p) = Ok (match rs with [] => Quiet | _ => Responds c q rs end) /\ (c = None <-> proper p)
       /\ (forall r, In r rs -> exists e, In e es /\ to_answer e /\ ~ is_over v e /\ about e r) /\ (forall e, In e es -> to_answer e -> ~ is_over v e -> exists r, In r rs /\ about e r))
  /\ ((exists e, In e es /\ to_answer e /\ ~ begins e) -> on_event v (VDict p) = Raise AttributeError).
Proof.
  intros G F Q. unfold on_event. rewrite (item_get _ _ _ G). cbn [bind elements]. destruct (results_of T p es F) as (c & os & -> & L & P). split.
  - intros B. destruct (all_replied T p q es F Q B os L) as (rs & -> & R). cbn [bind]. exists c, rs. split; [|now split]. destruct rs; [reflexivity|]. rewrite (item_get _ _ _ Q). reflexivity.
  - intros N. rewrite (none_replied T p q es F Q N os L). reflexivity.
Qed.
Lemma all_begin T es : Forall (tells T) es -> (forall e, In e es -> to_answer e -> begins e) \/ exists e, In e es /\ to_answer e /\ ~ begins e.
Proof.
  induction 1 as [|e es H F [IH|(e' & J & N)]]; [left; intros ? [] | | right; exists e'; split; [now right | exact N]].
  destruct (answer_dec T e H) as [TA|NA]; [destruct (begins_dec T e H) as [B|NB]|].
  - left. intros e' [<-|J]; [now intros _ | now apply IH].
  - right. exists e. now repeat split; try left.
  - left. intros e' [<-|J] TA; [contradiction | now apply IH].
Qed.
Lemma timed_begin (T : Prop) e : T -> tells T e -> begins e.
Proof. intros HT [_ _ (a & t & z & A & A1 & HU & _) _]. destruct (HU HT) as [u ->]. exists (VDict a), u. now split. Qed.
End Events.
