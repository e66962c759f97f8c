(** Proofs about signed messages. *)
From Coq Require Import ZArith String Ascii List Bool Lia Permutation.
From Verif.Base Require Import Result Dict PyStr.
From Verif.Model Require Import DateTime Normalize Xml XmlText Schema SchemaTypes Replay Signature.
From Verif.Proofs Require Import ReplayProofs TextProofs XmlTextProofs NormalizeProofs ReadableProofs.
From Verif.Model Require Import Normalize Replay Signature.
From Verif.Spec Require Import Timestamp ReplaySpec ReadableSpec SignatureSpec.
Import ListNotations.
Local Open Scope string_scope.

Lemma Forall2_in_r {A B} (R : A -> B -> Prop) l1 l2 y : Forall2 R l1 l2 -> In y l2 -> exists x, In x l1 /\ R x y.
Proof.
  intros F. induction F as [|a b l1 l2 H F IH]; [intros []|]. intros [<-|I]; [exists a; split; [now left|exact H]|].
  destruct (IH I) as (x & X & Y). exists x. split; [now right|exact Y].
Qed.

(** * Elements in a tree *)
Lemma below_in c n a t cs x : In c cs -> In x (c :: below c) -> In x (below (Elem n a t cs)).
Proof. intros C X. cbn [below]. apply in_flat_map. eauto. Qed.
Lemma within_below : forall y x, within x y -> In x (y :: below y).
Proof.
  intros y x W. induction W as [x|n a t cs c x I W IH]; [now left|]. right. exact (below_in c n a t cs x I IH).
Qed.
Lemma below_trans : forall z y x, In y (below z) -> In x (below y) -> In x (below z).
Proof.
  fix IH 1. intros [n a t cs] y x Y X. cbn [below] in Y. apply in_flat_map in Y as (c & C & Y).
  apply (below_in c _ _ _ _ _ C). right. destruct Y as [->|Y]; [exact X|].
  clear -IH C Y X. revert C. induction cs as [|d cs IHcs]; [intros []|]. intros [<-|C]; [exact (IH d y x Y X)|exact (IHcs C)].
Qed.
Lemma within_root_below x p e : In p (x :: below x) -> within e p -> e = x \/ In e (below x).
Proof.
  intros P W. apply within_below in W. destruct P as [<-|P]; destruct W as [<-|W]; auto. right. exact (below_trans _ _ _ P W).
Qed.
Lemma the_one_found name x e : the_one name x e -> find_below name x = Some e.
Proof.
  unfold the_one, find_below. induction (below x) as [|y l IH]; [discriminate|]. cbn [filter List.find].
  destruct (xml_name y =? name); [now intros [= -> _]|exact IH].
Qed.
Lemma the_one_only name x e y : the_one name x e -> In y (below x) -> xml_name y = name -> y = e.
Proof.
  unfold the_one. intros H I N. assert (J : In y (filter (fun y => xml_name y =? name) (below x))) by (apply filter_In; split; [exact I|now apply String.eqb_eq]).
  rewrite H in J. destruct J as [->|[]]; reflexivity.
Qed.
Lemma the_one_in name x e : the_one name x e -> In e (below x) /\ xml_name e = name.
Proof.
  intros H. assert (J : In e (filter (fun y => xml_name y =? name) (below x))) by (rewrite H; now left).
  apply filter_In in J as [J E]. apply String.eqb_eq in E. auto.
Qed.

(** * References *)
Lemma split_brace_clark u n : split_brace n = None -> split_brace (u ++ "}" ++ n) = Some (u, n).
Proof.
  intros N. induction u as [|c u IH]; cbn [append split_brace].
  - cbn [append split_brace] in *. rewrite N. now rewrite Ascii.eqb_refl.
  - cbn [append] in IH. rewrite IH. reflexivity.
Qed.
Lemma has_id_carries id x : has_id id x -> carries id x = true.
Proof.
  intros (n & attrs & t & cs & k & -> & I & K). cbn [carries]. apply existsb_exists. exists (k, id). split; [exact I|]. cbn [fst snd].
  rewrite String.eqb_refl, andb_true_r. apply String.eqb_eq. destruct K as [->|[u ->]]; [reflexivity|].
  unfold local_name. cbn [append strip_prefix]. rewrite Ascii.eqb_refl. cbn [strip_prefix].
  change (u ++ "}Id") with (u ++ "}" ++ "Id"). now rewrite (split_brace_clark u "Id" eq_refl).
Qed.
Lemma resolve_in x u y : resolve x u = Some y -> In y (x :: below x).
Proof.
  unfold resolve. destruct u as [|c u]; [discriminate|].
  destruct (Ascii.eqb_spec c "#") as [->|N].
  - destruct (filter (carries u) (x :: below x)) as [|z [|]] eqn:F; try discriminate. intros [= ->].
    assert (J : In y (filter (carries u) (x :: below x))) by (rewrite F; now left). now apply filter_In in J.
  - destruct c as [[] [] [] [] [] [] [] []]; try discriminate. now contradiction N.
Qed.
Lemma resolve_has_id x id y e : resolve x (String "#" id) = Some y -> In e (x :: below x) -> has_id id e -> e = y.
Proof.
  unfold resolve. intros R I H. apply has_id_carries in H.
  assert (J : In e (filter (carries id) (x :: below x))) by (now apply filter_In).
  destruct (filter (carries id) (x :: below x)) as [|z [|]]; try discriminate R. injection R as ->. destruct J as [->|[]]; reflexivity.
Qed.
Lemma resolve_all_in x us ts : resolve_all x us = Some ts -> (forall y, In y ts -> In y (x :: below x)) /\ length ts = length us
  /\ (forall u, In u us -> exists y, resolve x u = Some y /\ In y ts).
Proof.
  revert ts; induction us as [|u us IH]; intros ts; cbn [resolve_all].
  - intros [= <-]. split; [intros y []|]. split; [reflexivity|]. intros u [].
  - destruct (resolve x u) as [y|] eqn:R; [|discriminate]. destruct (resolve_all x us) as [ys|]; [|discriminate]. intros [= <-].
    destruct (IH ys eq_refl) as (A & B & C). split; [|split].
    + intros z [<-|Z]; [exact (resolve_in x u y R)|exact (A z Z)].
    + cbn [length]. now rewrite B.
    + intros v [<-|V]; [exists y; split; [exact R|now left]|]. destruct (C v V) as (z & Z1 & Z2). exists z. split; [exact Z1|now right].
Qed.
Lemma signed_parts_one x ts ts' : signed_parts x ts -> signed_parts x ts' -> ts = ts'.
Proof. intros (i & v & A & B) (i' & v' & A' & B'). rewrite A in A'. injection A' as <- <-. congruence. Qed.
Lemma signed_parts_in x ts p : signed_parts x ts -> In p ts -> In p (x :: below x).
Proof. intros (i & v & A & B) I. now apply (proj1 (resolve_all_in _ _ _ B)). Qed.

Section Verification.
Context (fingerprint_of : string -> result string) (checks : string -> xml -> xml -> list xml -> bool).
Notation verify := (verify checks).
Notation validate_xml_signature := (validate_xml_signature fingerprint_of checks).
Notation authenticate_signature := (authenticate_signature fingerprint_of checks).

Lemma verify_ok x cert ts : verify x cert = Ok ts <->
  exists info value, signature_of x = Some (info, value) /\ length (references info) = 2 /\ resolve_all x (references info) = Some ts /\ checks cert info value ts = true.
Proof.
  unfold Signature.verify. split.
  - destruct (signature_of x) as [[i v]|]; [|discriminate]. destruct (Nat.eqb (length (references i)) 2) eqn:L; [|discriminate]. apply Nat.eqb_eq in L.
    destruct (resolve_all x (references i)) as [us|] eqn:R; [|discriminate]. destruct (checks cert i v us) eqn:C; [|discriminate]. intros [= <-]. eauto 8.
  - intros (i & v & -> & L & R & C). rewrite L, R, C. reflexivity.
Qed.

(** Everything before the replay check, as one condition. *)
Definition proper (expected : option string) (x : xml) : Prop :=
  exists cert ts, extract_pem_cert x = Ok cert /\ (forall e, expected = Some e -> fingerprint_of cert = Ok e) /\ verify x cert = Ok ts.
Lemma validate_cases m expected x cache :
  (proper expected x /\ validate_xml_signature m expected x cache = do_check (replay_check m x) cache)
  \/ (~ proper expected x /\ exists e, validate_xml_signature m expected x cache = (Raise e, cache)).
Proof.
  unfold Signature.validate_xml_signature, proper. destruct (extract_pem_cert x) as [cert|e].
  2:{ right. split; [intros (c & ts & E & _); discriminate E|eauto]. }
  destruct expected as [e|].
  - destruct (fingerprint_of cert) as [f|er] eqn:F; cbn [bind].
    2:{ right. split; [intros (c & ts & [= <-] & E & _); specialize (E e eq_refl); congruence|eauto]. }
    destruct (String.eqb_spec f e) as [->|N].
    2:{ right. split; [intros (c & ts & [= <-] & E & _); specialize (E e eq_refl); congruence|eauto]. }
    destruct (verify x cert) as [ts|er] eqn:V.
    + left. split; [|reflexivity]. exists cert, ts. split; [reflexivity|]. split; [intros ? [= <-]; exact F|exact V].
    + right. split; [intros (c & ts & [= <-] & _ & E); congruence|eauto].
  - destruct (verify x cert) as [ts|er] eqn:V.
    + left. split; [|reflexivity]. exists cert, ts. split; [reflexivity|]. split; [discriminate|exact V].
    + right. split; [intros (c & ts & [= <-] & _ & E); congruence|eauto].
Qed.

(** The server accepts what the client accepts. *)
Lemma server_same m e x cache :
  snd (authenticate_signature m e x cache) = snd (validate_xml_signature m (Some e) x cache)
  /\ (fst (authenticate_signature m e x cache) = Ok tt <-> fst (validate_xml_signature m (Some e) x cache) = Ok tt).
Proof.
  unfold Signature.authenticate_signature, Signature.validate_xml_signature. destruct (extract_pem_cert x) as [cert|er]; [|split; reflexivity].
  destruct (fingerprint_of cert) as [f|er]; cbn [bind]; [|split; reflexivity].
  destruct (f =? e); [|split; [reflexivity|split; discriminate]].
  destruct (verify x cert) as [ts|er]; [|destruct er; split; try reflexivity; split; discriminate].
  destruct (do_check (replay_check m x) cache) as [[u|er] c]; [split; reflexivity|]. destruct er; split; try reflexivity; split; discriminate.
Qed.

Context (num : numbers) (depth : nat) (uri : string -> bool) (foreign : xml -> bool) (expected : string).
Notation receive := (receive fingerprint_of checks num depth uri foreign expected).
Notation receive_all := (receive_all fingerprint_of checks num depth uri foreign expected).

Lemma schema_reads s x : validate_xml_schema uri foreign s = Ok x -> read_expanded s = Some x.
Proof. unfold validate_xml_schema. destruct (read_expanded s) as [y|]; [|discriminate]. destruct (valid_document _ _ _ _ y); [now intros [= ->]|discriminate]. Qed.
Lemma receive_ok m s cache r cache' : receive m s cache = (Ok r, cache') ->
  exists x, validate_xml_schema uri foreign s = Ok x /\ proper (Some expected) x /\ do_check (replay_check m x) cache = (Ok tt, cache') /\ parse_message num depth s = Ok r.
Proof.
  unfold Signature.receive. destruct (validate_xml_schema uri foreign s) as [x|e]; [|discriminate].
  destruct (validate_cases m (Some expected) x cache) as [[P ->]|[P [e ->]]]; [|discriminate].
  destruct (do_check (replay_check m x) cache) as [[[]|e] c] eqn:D; [|discriminate]. intros [= E <-]. exists x. rewrite D. auto.
Qed.

Lemma proper_genuine genuine x : unforgeable fingerprint_of checks expected genuine -> proper (Some expected) x ->
  exists ts, signed_parts x ts /\ length ts = 2 /\ genuine ts.
Proof.
  intros U (cert & ts & _ & F & V). apply verify_ok in V as (i & v & S1 & L & R & C). exists ts. split; [exists i, v; auto|].
  split; [now rewrite (proj1 (proj2 (resolve_all_in _ _ _ R)))|]. exact (U cert i v ts (F _ eq_refl) C).
Qed.

Lemma envelope_child x object : envelope x object -> In object (below x).
Proof.
  intros (a & t & sg & -> & _). apply (below_in object); [apply in_or_app; right; now left|now left].
Qed.
Lemma contents genuine m s cache r cache' x object : unforgeable fingerprint_of checks expected genuine ->
  receive m s cache = (Ok r, cache') -> read_expanded s = Some x -> envelope x object -> refers_to_object x object ->
  exists ts, genuine ts /\ In object ts.
Proof.
  intros U R X E (ID & i & v & SG & REF). apply receive_ok in R as (y & Y & P & _). apply schema_reads in Y. assert (y = x) by congruence. subst y.
  destruct (proper_genuine genuine x U P) as (ts & (i' & v' & SG' & RA) & _ & G). rewrite SG in SG'. injection SG' as <- <-.
  exists ts. split; [exact G|]. destruct (resolve_all_in _ _ _ RA) as (_ & _ & C). destruct (C _ REF) as (z & Z & I).
  assert (object = z) as ->; [|exact I]. apply (resolve_has_id x "oadrSignedObject"); [exact Z|right; now apply envelope_child|exact ID].
Qed.

(** * Histories *)
(** The check of a document that is refused before the replay check: one that
    fails. *)
Definition at_moment (m : moment) (ts nonce : option string) : check :=
  {| ck_ts := ts; ck_nonce := nonce; ck_now := m_now m; ck_clk := m_clk m; ck_shuffle := m_shuffle m |}.
Lemma receive_check m s : exists c, ck_now c = m_now m /\ ck_clk c = m_clk m /\ ck_shuffle c = m_shuffle m
  /\ (forall cache, snd (receive m s cache) = snd (do_check c cache))
  /\ (forall cache r, fst (receive m s cache) = Ok r -> fst (do_check c cache) = Ok tt)
  /\ (forall cache r x, fst (receive m s cache) = Ok r -> read_expanded s = Some x -> c = replay_check m x).
Proof.
  destruct (validate_xml_schema uri foreign s) as [x|e] eqn:V.
  - destruct (validate_cases m (Some expected) x []) as [[P _]|[P _]].
    + exists (replay_check m x). repeat (split; [reflexivity|]). unfold Signature.receive. rewrite V. split; [|split].
      * intros cache. destruct (validate_cases m (Some expected) x cache) as [[_ ->]|[N _]]; [|contradiction]. destruct (do_check (replay_check m x) cache) as [[]]; reflexivity.
      * intros cache r. destruct (validate_cases m (Some expected) x cache) as [[_ ->]|[N _]]; [|contradiction]. destruct (do_check (replay_check m x) cache) as [[[]|]]; [reflexivity|discriminate].
      * intros cache r y _ Y. apply schema_reads in V. congruence.
    + exists (at_moment m None None). repeat (split; [reflexivity|]). unfold Signature.receive. rewrite V. split; [|split].
      * intros cache. destruct (validate_cases m (Some expected) x cache) as [[N _]|[_ [er ->]]]; [contradiction|reflexivity].
      * intros cache r. destruct (validate_cases m (Some expected) x cache) as [[N _]|[_ [er ->]]]; [contradiction|discriminate].
      * intros cache r y. destruct (validate_cases m (Some expected) x cache) as [[N _]|[_ [er ->]]]; [contradiction|discriminate].
  - exists (at_moment m None None). repeat (split; [reflexivity|]). unfold Signature.receive. rewrite V. split; [reflexivity|split; discriminate].
Qed.
Definition stands_for (ms : moment * string) (c : check) : Prop :=
  ck_now c = m_now (fst ms) /\ ck_clk c = m_clk (fst ms) /\ ck_shuffle c = m_shuffle (fst ms)
  /\ (forall cache, snd (receive (fst ms) (snd ms) cache) = snd (do_check c cache))
  /\ (forall cache r, fst (receive (fst ms) (snd ms) cache) = Ok r -> fst (do_check c cache) = Ok tt)
  /\ (forall cache r x, fst (receive (fst ms) (snd ms) cache) = Ok r -> read_expanded (snd ms) = Some x -> c = replay_check (fst ms) x).
Lemma history_checks h : exists cs, Forall2 stands_for h cs.
Proof.
  induction h as [|[m s] h [cs IH]]; [exists []; constructor|]. destruct (receive_check m s) as (c & C). exists (c :: cs). constructor; assumption.
Qed.
Lemma checks_in_order h cs : Forall2 stands_for h cs -> in_order (map fst h) -> fair (map fst h) -> clock_ok cs /\ shuffles_ok cs.
Proof.
  intros F O A. split.
  - clear A. induction F as [|ms c h cs (N & C & S1 & _) F IH]; [exact I|]. destruct O as (O1 & O2 & O3). split; [|split].
    + intros i. rewrite N, C. apply O1.
    + intros c' I i. rewrite C. destruct (Forall2_in_r _ _ _ _ F I) as (ms' & M & (N' & _)). rewrite N'. apply O2. now apply in_map.
    + exact (IH O3).
  - intros c I l. destruct (Forall2_in_r _ _ _ _ F I) as (ms & M & (_ & _ & S1 & _)). rewrite S1. apply A. now apply in_map.
Qed.
Lemma history_outcome h cs : Forall2 stands_for h cs -> forall cache i r, nth_error (receive_all h cache) i = Some (Ok r) ->
  nth_error (outcomes cs cache) i = Some (Ok tt)
  /\ (forall m s x, nth_error h i = Some (m, s) -> read_expanded s = Some x -> nth_error cs i = Some (replay_check m x) /\ proper (Some expected) x).
Proof.
  intros F. induction F as [|[m s] c h cs (_ & _ & _ & S1 & S2 & S3) F IH]; intros cache i r H; [destruct i; discriminate|].
  cbn [Signature.receive_all outcomes fst snd] in *. destruct (receive m s cache) as [o cache1] eqn:E. destruct (do_check c cache) as [o' cache2] eqn:D.
  specialize (S1 cache). rewrite E, D in S1. cbn [snd] in S1. subst cache2. destruct i as [|i]; cbn [nth_error] in *.
  - injection H as ->. specialize (S2 cache r). rewrite E, D in S2. cbn [fst] in S2. rewrite (S2 eq_refl). split; [reflexivity|].
    intros m' s' x [= <- <-] X. split; [f_equal; apply (S3 cache r); [now rewrite E|exact X]|].
    apply receive_ok in E as (y & Y & P & _). apply schema_reads in Y. congruence.
  - exact (IH cache1 i r H).
Qed.

Lemma stamped_presents x1 x2 m1 m2 ts e : stamped_once x1 -> stamped_once x2 -> signed_parts x1 ts -> signed_parts x2 ts ->
  xml_name x2 <> in_dsp "timestamp" -> xml_name x2 <> in_dsp "nonce" ->
  presents (replay_check m1 x1) e -> presents (replay_check m2 x2) e.
Proof.
  intros (ts1 & t1 & n1 & S1 & T1 & N1 & (p & P & PT) & (q & Q & QN)) (ts2 & t2 & n2 & S2 & T2 & N2 & _) H1 H2 D1 D2.
  assert (ts1 = ts) by exact (signed_parts_one _ _ _ S1 H1). subst ts1.
  destruct (the_one_in _ _ _ T1) as [_ E1]. destruct (the_one_in _ _ _ N1) as [_ E2].
  assert (t1 = t2).
  { destruct (within_root_below x2 p t1 (signed_parts_in _ _ _ H2 P) PT) as [->|W]; [contradiction|]. exact (the_one_only _ _ _ _ T2 W E1). }
  assert (n1 = n2).
  { destruct (within_root_below x2 q n1 (signed_parts_in _ _ _ H2 Q) QN) as [->|W]; [contradiction|]. exact (the_one_only _ _ _ _ N2 W E2). }
  subst t2 n2. unfold presents, replay_check, findtext. cbn [ck_ts ck_nonce].
  rewrite (the_one_found _ _ _ T1), (the_one_found _ _ _ T2), (the_one_found _ _ _ N1), (the_one_found _ _ _ N2). auto.
Qed.

Lemma parsed_root s x r : parse_message num depth s = Ok r -> read_expanded s = Some x -> plain_name (xml_name x) = "oadrPayload".
Proof.
  unfold parse_message, read_xml. intros H X. rewrite X in H. cbn [option_map] in H. rewrite plain_name_of in H.
  destruct (plain_name (xml_name x) =? "oadrPayload") eqn:E; [now apply String.eqb_eq|discriminate H].
Qed.
Lemma received_root h cache i r m s x : nth_error (receive_all h cache) i = Some (Ok r) -> nth_error h i = Some (m, s) -> read_expanded s = Some x ->
  plain_name (xml_name x) = "oadrPayload".
Proof.
  revert cache i. induction h as [|[m' s'] h IH]; intros cache i H HI X; [destruct i; discriminate|].
  cbn [Signature.receive_all] in H. destruct (receive m' s' cache) as [o cache1] eqn:E. destruct i as [|i]; cbn [nth_error] in *; [|exact (IH cache1 i H HI X)].
  injection H as ->. injection HI as -> ->. apply receive_ok in E as (y & _ & _ & _ & P). exact (parsed_root s x r P X).
Qed.

Lemma once h i j mi si mj sj xi xj ts ri rj : in_order (map fst h) -> fair (map fst h) -> (i < j)%nat ->
  nth_error h i = Some (mi, si) -> nth_error h j = Some (mj, sj) -> read_expanded si = Some xi -> read_expanded sj = Some xj ->
  stamped_once xi -> stamped_once xj ->
  nth_error (receive_all h []) i = Some (Ok ri) -> nth_error (receive_all h []) j = Some (Ok rj) ->
  signed_parts xi ts -> ~ signed_parts xj ts.
Proof.
  intros O F L HI HJ XI XJ SI SJ RI RJ PI PJ. destruct (history_checks h) as [cs CS]. destruct (checks_in_order h cs CS O F) as [CL SH].
  destruct (history_outcome h cs CS [] i ri RI) as [OI KI]. destruct (history_outcome h cs CS [] j rj RJ) as [OJ KJ].
  destruct (KI _ _ _ HI XI) as [CI _]. destruct (KJ _ _ _ HJ XJ) as [CJ _].
  destruct (outcomes_nth cs [] i _ CI) as (cache' & o & O1 & O2). rewrite OI in O1. injection O1 as <-.
  assert (OK : fst (do_check (replay_check mi xi) cache') = Ok tt) by now rewrite O2. apply do_check_ok_iff in OK as (e & E & _).
  pose proof (received_root h [] j rj mj sj xj RJ HJ XJ) as ROOT.
  assert (EJ : presents (replay_check mj xj) e).
  { apply (stamped_presents xi xj mi mj ts e SI SJ PI PJ); [| |exact E]; intros EQ; rewrite EQ in ROOT; discriminate ROOT. }
  exact (at_most_once cs CL SH [] i j _ _ e L CI CJ E EJ OI OJ).
Qed.
End Verification.

(** * Documents that create_message makes *)
Lemma filter_none {A} (f : A -> bool) l : (forall y, In y l -> f y = false) -> filter f l = [].
Proof. induction l as [|a l IH]; intros H; [reflexivity|]. cbn [filter]. rewrite (H a (or_introl eq_refl)). apply IH. intros; apply H; now right. Qed.
Lemma name_no n y : xml_name y <> n -> (xml_name y =? n) = false.
Proof. now intros H%String.eqb_neq. Qed.
Section Made.
Context (d1 d2 v c t nonce : string) (object : xml).
Let stamp := Elem (in_dsp "timestamp") [] t [].
Let once_ := Elem (in_dsp "nonce") [] nonce [].
Let rp := Elem (in_dsp "ReplayProtect") [("Id", "myid"); ("Target", "#mytarget")] "" [stamp; once_].
Let x := signed_document d1 d2 v c rp object.
Hypothesis PO : plain_object object.
Hypothesis NO : xml_name object = in_oadr "oadrSignedObject".
Let front : list xml := signature d1 d2 v c rp :: below (signature d1 d2 v c rp).
Lemma made_below : below x = (front ++ object :: below object)%list.
Proof. unfold x, signed_document, front. cbn [below flat_map]. now rewrite app_nil_r. Qed.
Lemma made_one name e : filter (fun y => xml_name y =? name) front = [e] -> xml_name object <> name -> (forall y, In y (below object) -> xml_name y <> name) -> the_one name x e.
Proof.
  intros F N H. unfold the_one. rewrite made_below, filter_app, F. cbn [filter]. rewrite (name_no _ _ N).
  rewrite (filter_none _ (below object)); [reflexivity|]. intros y Y. apply name_no, H, Y.
Qed.
Lemma made_stamp : the_one (in_dsp "timestamp") x stamp.
Proof.
  apply made_one; [vm_compute; reflexivity|rewrite NO; vm_compute; discriminate|]. intros y Y. exact (proj1 (proj2 (proj2 (proj2 (proj2 PO) y Y)))).
Qed.
Lemma made_nonce : the_one (in_dsp "nonce") x once_.
Proof.
  apply made_one; [vm_compute; reflexivity|rewrite NO; vm_compute; discriminate|]. intros y Y. exact (proj2 (proj2 (proj2 (proj2 (proj2 PO) y Y)))).
Qed.
Lemma made_signature : signature_of x = Some (signed_info d1 d2, plain_el "SignatureValue" v).
Proof. reflexivity. Qed.
Lemma made_resolve id e : (filter (carries id) (x :: front) ++ filter (carries id) (object :: below object))%list = [e] -> resolve x (String "#" id) = Some e.
Proof.
  intros H. unfold resolve. rewrite made_below. change (x :: front ++ object :: below object)%list with ((x :: front) ++ object :: below object)%list.
  rewrite filter_app, H. reflexivity.
Qed.
Lemma made_parts : resolve_all x (references (signed_info d1 d2)) = Some [object; properties rp].
Proof.
  change (references (signed_info d1 d2)) with ["#oadrSignedObject"; "#prop"]. cbn [resolve_all]. destruct PO as (ID & P & R).
  rewrite (made_resolve "oadrSignedObject" object), (made_resolve "prop" (properties rp)); [reflexivity| |].
  - replace (filter (carries "prop") (x :: front)) with [properties rp] by (vm_compute; reflexivity).
    rewrite (filter_none _ (object :: below object)); [reflexivity|]. intros y [<-|Y]; [exact P|]. exact (proj1 (proj2 (R y Y))).
  - replace (filter (carries "oadrSignedObject") (x :: front)) with (@nil xml) by (vm_compute; reflexivity).
    cbn [filter]. rewrite (has_id_carries _ _ ID), (filter_none _ (below object)); [reflexivity|]. intros y Y. exact (proj1 (R y Y)).
Qed.
Lemma made_refers : refers_to_object x object.
Proof. split; [exact (proj1 PO)|]. exists (signed_info d1 d2), (plain_el "SignatureValue" v). split; [exact made_signature|]. now left. Qed.
Lemma made_stamped : stamped_once x.
Proof.
  exists [object; properties rp], stamp, once_. split; [exists (signed_info d1 d2), (plain_el "SignatureValue" v); split; [exact made_signature|exact made_parts]|].
  split; [exact made_stamp|]. split; [exact made_nonce|].
  assert (W : forall e, In e [stamp; once_] -> within e (properties rp)).
  { intros e E. unfold properties. do 3 (eapply within_child; [now left|]). unfold rp. eapply within_child; [exact E|constructor]. }
  split; (exists (properties rp); split; [right; now left|apply W; cbn; tauto]).
Qed.
Lemma made_certificate : c <> "" -> extract_pem_cert x = Ok (pem c).
Proof.
  intros N. unfold extract_pem_cert. change (find_below (in_ds "X509Certificate") x) with (Some (plain_el "X509Certificate" c)). cbn [own_text plain_el].
  destruct c; [contradiction|reflexivity].
Qed.
Lemma made_accepted fingerprint_of checks m expected cache i : c <> "" -> reads_as t i ->
  (fst (validate_xml_signature fingerprint_of checks m (Some expected) x cache) = Ok tt <->
   fingerprint_of (pem c) = Ok expected /\ checks (pem c) (signed_info d1 d2) (plain_el "SignatureValue" v) [object; properties rp] = true
   /\ (m_now m - max_delta <= i)%Z /\ ~ In (i, nonce) cache).
Proof.
  intros C T.
  assert (PR : presents (replay_check m x) (i, nonce)).
  { exists t. cbn [fst snd]. unfold replay_check, findtext. cbn [ck_ts ck_nonce]. rewrite (the_one_found _ _ _ made_stamp), (the_one_found _ _ _ made_nonce). auto. }
  destruct (validate_cases fingerprint_of checks m (Some expected) x cache) as [[P ->]|[P [e ->]]].
  - rewrite do_check_ok_iff. destruct P as (cert & ts & E & F & V). rewrite (made_certificate C) in E. injection E as <-. specialize (F _ eq_refl).
    apply verify_ok in V as (i' & v' & SG & L & R & K). rewrite made_signature in SG. injection SG as <- <-. rewrite made_parts in R. injection R as <-. split.
    + intros (e & PE & A & B). rewrite <- (presents_functional _ _ _ PR PE) in A, B. auto.
    + intros (_ & _ & A & B). exists (i, nonce). auto.
  - split; [discriminate|]. intros (F & K & _). destruct P. exists (pem c), [object; properties rp]. split; [exact (made_certificate C)|].
    split; [intros ? [= <-]; exact F|]. apply verify_ok. exists (signed_info d1 d2), (plain_el "SignatureValue" v). split; [exact made_signature|]. split; [reflexivity|]. split; [exact made_parts|exact K].
Qed.
End Made.

(** What is read from a document is read from its object. *)
Lemma parse_envelope num depth s x object : read_expanded s = Some x -> envelope x object ->
  parse_message num depth s =
    match to_val (plain_xml object) with
    | VDict object =>
      match last_item object with
      | Some (kind, VDict d) => bind (normalize num depth d) (fun d => Ok (kind, d))
      | Some _ => Raise AttributeError
      | None => Raise KeyError
      end
    | _ => Raise AttributeError
    end.
Proof.
  intros X (attrs & text & signature & -> & B & SG & NO). unfold parse_message, read_xml. rewrite X. cbn [option_map].
  rewrite plain_name_of. change (plain_name (xml_name (Elem (in_oadr "oadrPayload") attrs text (signature ++ [object])))) with "oadrPayload".
  change ("oadrPayload" =? "oadrPayload") with true. cbv iota. fold (V (Elem (in_oadr "oadrPayload") attrs text (signature ++ [object]))).
  destruct (entries_of (in_oadr "oadrPayload") attrs text (signature ++ [object]) B) as (d & E & _ & e & -> & ND & G).
  { right. destruct signature; discriminate. }
  { intros c I. apply in_app_or in I as [I|[<-|[]]]; [rewrite (proj1 (Forall_forall _ _) SG c I)|rewrite NO]; reflexivity. }
  rewrite E. assert (VG : vget "oadrSignedObject" (at_attrs attrs ++ e)%list = Some (V object)).
  { rewrite vget_app. assert (VN : vget "oadrSignedObject" (at_attrs attrs) = None).
    { apply vget_none. intros I. apply in_map_iff in I as (kv & K & I). apply in_map_iff in I as (b & <- & _). discriminate K. }
    rewrite VN, G, map_app, called_app, !called_plain. replace (filter (fun c => plain_name (xml_name c) =? "oadrSignedObject") signature) with (@nil xml).
    - cbn [filter]. rewrite NO. reflexivity.
    - clear - SG. induction SG as [|c l H _ IH]; [reflexivity|]. cbn [filter]. rewrite H. change (plain_name (in_ds "Signature") =? "oadrSignedObject") with false. exact IH. }
  rewrite VG. unfold V. reflexivity.
Qed.

(** ** What is found in a document *)
Lemma ends_with_spec e s : ends_with e s = true <-> exists r, s = r ++ e.
Proof.
  induction s as [|c s IH]; cbn [ends_with]; rewrite orb_true_iff, String.eqb_eq.
  - split; [intros [<-|H]; [now exists ""|discriminate H]|]. intros (r & E). left. destruct r; [exact E|discriminate E].
  - rewrite IH. split.
    + intros [<-|(r & ->)]; [now exists ""|now exists (String c r)].
    + intros (r & E). destruct r as [|d r]; [left; exact E|]. injection E as -> ->. right. now exists r.
Qed.
Lemma pem_form text p : in_pem_form text p <-> p = pem text.
Proof.
  unfold in_pem_form, pem. destruct (ends_with lf text) eqn:E.
  - apply ends_with_spec in E as (r & E). split; [intros (b & -> & [(r' & _ & ->)|(N & _)]); [reflexivity|now elim (N r)]|]. intros ->. exists text. split; [reflexivity|]. left. now exists r.
  - assert (N : forall r, text <> r ++ lf) by (intros r F; assert (T : ends_with lf text = true) by (apply ends_with_spec; eauto); congruence).
    split; [intros (b & -> & [(r' & F & _)|(_ & ->)]); [now elim (N r')|reflexivity]|]. intros ->. exists (text ++ lf). split; [reflexivity|]. now right.
Qed.
Lemma find_first {A} (f : A -> bool) l e : List.find f l = Some e <-> f e = true /\ exists before after, l = (before ++ e :: after)%list /\ forall y, In y before -> f y = false.
Proof.
  induction l as [|a l IH]; cbn [List.find].
  - split; [discriminate|]. intros (_ & b & c & E & _). destruct b; discriminate E.
  - destruct (f a) eqn:F.
    + split.
      * intros [= <-]. split; [exact F|]. exists [], l. split; [reflexivity|intros y []].
      * intros (_ & [|b bs] & c & E & N); [now injection E as ->|]. injection E as -> _. specialize (N b (or_introl eq_refl)). congruence.
    + rewrite IH. split; intros (G & H); (split; [exact G|]).
      * destruct H as (b & c & -> & N). exists (a :: b), c. split; [reflexivity|]. intros y [<-|I]; [exact F|now apply N].
      * destruct H as ([|b bs] & c & E & N); [injection E as -> _; congruence|]. injection E as -> ->. exists bs, c. split; [reflexivity|]. intros y I. apply N. now right.
Qed.
Lemma first_named_spec name x e : find_below name x = Some e <-> first_named name x e.
Proof.
  unfold find_below, first_named. rewrite find_first, String.eqb_eq. split; intros (N & b & c & E & H); (split; [exact N|]); exists b, c; (split; [exact E|]); intros y I; specialize (H y I); now apply String.eqb_neq.
Qed.
Lemma certificate_spec x p : extract_pem_cert x = Ok p <-> exists e t, first_named (in_ds "X509Certificate") x e /\ own_text e = t /\ t <> "" /\ in_pem_form t p.
Proof.
  unfold extract_pem_cert. split.
  - destruct (find_below (in_ds "X509Certificate") x) as [e|] eqn:F; [|discriminate]. apply first_named_spec in F. destruct (own_text e) as [|c r] eqn:T; [discriminate|]. intros [= <-]. exists e, (String c r). split; [exact F|]. split; [exact T|]. split; [discriminate|now apply pem_form].
  - intros (e & t & F & T & N & P). apply first_named_spec in F. rewrite F, T. destruct t; [contradiction|]. apply pem_form in P as ->. reflexivity.
Qed.
Lemma carries_has_id id x : carries id x = true -> exists n attrs t cs k, x = Elem n attrs t cs /\ In (k, id) attrs /\ local_name k = "Id".
Proof.
  destruct x as [n a t cs]. cbn [carries]. rewrite existsb_exists. intros ((k & v) & I & H). apply andb_true_iff in H as [K V]. apply String.eqb_eq in K, V. cbn [fst snd] in *. subst v. exists n, a, t, cs, k. auto.
Qed.
Lemma split_brace_app s u n : split_brace s = Some (u, n) -> s = u ++ "}" ++ n.
Proof.
  revert u. induction s as [|c s IH]; intros u; cbn [split_brace]; [discriminate|]. destruct (split_brace s) as [[a b]|].
  - intros [= <- <-]. cbn [append]. f_equal. now apply IH.
  - destruct (Ascii.eqb c "}") eqn:E; [|discriminate]. apply Ascii.eqb_eq in E as ->. now intros [= <- <-].
Qed.
Lemma carries_iff id x : carries id x = true <-> has_id id x.
Proof.
  split; [|apply has_id_carries]. intros C. apply carries_has_id in C as (n & a & t & cs & k & -> & I & L). exists n, a, t, cs, k. split; [reflexivity|]. split; [exact I|].
  unfold local_name in L. destruct (strip_prefix "{" k) as [r|] eqn:E; [|now left]. destruct (split_brace r) as [[u m]|] eqn:B; [|now left]. subst m. right. exists u. apply split_brace_app in B. apply strip_prefix_spec in E. now rewrite E, B.
Qed.
Lemma resolve_spec x uri y : resolve x uri = Some y -> exists id, uri = String "#" id /\ has_id id y /\ In y (x :: below x).
Proof.
  intros R. assert (I := resolve_in _ _ _ R). unfold resolve in R. destruct uri as [|c id]; [discriminate R|]. destruct (Ascii.eqb c "#") eqn:E.
  - apply Ascii.eqb_eq in E as ->. exists id. split; [reflexivity|]. split; [|exact I]. destruct (filter (carries id) (x :: below x)) as [|z [|]] eqn:F; try discriminate R. injection R as ->.
    apply carries_iff. assert (J : In y (filter (carries id) (x :: below x))) by (rewrite F; now left). now apply filter_In in J.
  - exfalso. destruct c as [[] [] [] [] [] [] [] []]; try discriminate R. discriminate E.
Qed.
Lemma accepted_form fingerprint_of checks m e x cache : fst (validate_xml_signature fingerprint_of checks m (Some e) x cache) = Ok tt ->
  exists cert s info value r1 r2 i1 i2 p q, extract_pem_cert x = Ok cert /\ fingerprint_of cert = Ok e
    /\ first_named (in_ds "Signature") x s /\ In info (children_of s) /\ xml_name info = in_ds "SignedInfo" /\ In value (children_of s) /\ xml_name value = in_ds "SignatureValue"
    /\ filter (fun y => xml_name y =? in_ds "Reference") (children_of info) = [r1; r2]
    /\ uri_of r1 = "#" ++ i1 /\ uri_of r2 = "#" ++ i2 /\ has_id i1 p /\ has_id i2 q /\ In p (x :: below x) /\ In q (x :: below x)
    /\ checks cert info value [p; q] = true.
Proof.
  intros H. destruct (validate_cases fingerprint_of checks m (Some e) x cache) as [((cert & ts & C & F & V) & _)|(_ & er & E)]; [|rewrite E in H; discriminate H].
  apply verify_ok in V as (info & value & SO & L & R & CK). unfold signature_of in SO. destruct (find_below (in_ds "Signature") x) as [s|] eqn:S; [|discriminate SO].
  destruct (List.find (named (in_ds "SignedInfo")) (children_of s)) as [i|] eqn:FI; [|discriminate SO]. destruct (List.find (named (in_ds "SignatureValue")) (children_of s)) as [v|] eqn:FV; [|discriminate SO]. injection SO as -> ->.
  apply find_some in FI as (I1 & I2), FV as (V1 & V2). apply String.eqb_eq in I2, V2. unfold references in *. unfold named in R, L.
  destruct (filter (fun y => xml_name y =? in_ds "Reference") (children_of info)) as [|r1 [|r2 [|]]] eqn:RF; rewrite map_length in L; try discriminate L. cbn [map resolve_all] in R.
  destruct (resolve x (uri_of r1)) as [p|] eqn:P; [|discriminate R]. destruct (resolve x (uri_of r2)) as [q|] eqn:Q; [|discriminate R]. injection R as <-.
  apply resolve_spec in P as (i1 & U1 & H1 & J1), Q as (i2 & U2 & H2 & J2).
  exists cert, s, info, value, r1, r2, i1, i2, p, q. apply first_named_spec in S. repeat (split; [first [assumption|now apply F|reflexivity]|]). exact CK.
Qed.
