(** What a VTN reads of the oadrUpdateReport messages that the schema allows. *)
From Coq Require Import ZArith String Ascii List Bool Lia Arith.
From Verif.Base Require Import Result Dict PyStr ListExtra.
From Verif.Model Require Import Duration DateTime Text Normalize Xml XmlText Schema SchemaTypes.
From Verif.Spec Require Import Timestamp TextSpec MessageSpec ReadableSpec PolledSpec RepliedSpec DeliveredSpec UpdatedSpec.
From Verif.Proofs Require Import DateTimeProofs TextProofs NormalizeProofs CalmProofs ReadableProofs MemberProofs EventMemberProofs PolledProofs RepliedProofs.
From Verif.Proofs Require UnnamedProofs AnsweredProofs.
Import ListNotations.
Local Open Scope string_scope.

Section Updates.
Context (uri : string -> bool) (num : numbers).
Local Notation nz := (normalize num).
Local Notation valid' := (valid uri (fun _ => false)).
Local Notation carried := (carried num).
Local Notation steady := (steady num).
Local Notation becomes := (becomes num).
Local Notation interpret := (Normalize.interpret num).
Local Notation value_of := (NormalizeProofs.value_of num).

(** ** Several elements of one kind *)
Record kind_of (R R' : xml -> val -> Prop) : Prop := mk_kind {
  ki_steady : forall r, steady (R r);
  ki_becomes : forall r, becomes (R r) (R' r);
  ki_again : forall r v, R' r v -> R r v;
  ki_compact : forall r m x y, R r (VDict x) -> nz m x = Ok y -> compact y = true }.
Section Items.
Context (R R' : xml -> val -> Prop) (K : kind_of R R').
Lemma items_each rs m q u v : Forall2 R rs (items_of u) -> (exists l, u = VList l) \/ (exists x, u = VDict x) -> value_of m q u = Ok v ->
  Forall2 R' rs (items_of v) /\ ((exists l, u = VList l) -> exists l, v = VList l) /\ ((exists x, u = VDict x) -> exists y, v = VDict y /\ compact y = true).
Proof.
  destruct K as [ST BC AG CO]. intros F [[l ->]|[x ->]] VV; cbn [items_of] in F.
  - cbn [NormalizeProofs.value_of] in VV. destruct (mapM _ l) as [l'|] eqn:ML; [|discriminate VV]. injection VV as <-. split; [|split; [eauto | intros [x X]; discriminate X]]. cbn [items_of].
    revert l' ML. induction F as [|r w rs l H F IH]; intros l' ML; cbn [mapM] in ML; [injection ML as <-; constructor|]. destruct (proj1 (ST r) w H) as [x ->].
    destruct (nz m x) as [y|] eqn:N1; [|discriminate ML]. cbn [bind] in ML. destruct (nz m y) as [z|] eqn:N2; [|discriminate ML]. cbn [bind] in ML. destruct (mapM _ l) as [l2|]; [|discriminate ML]. cbn [bind] in ML. injection ML as <-.
    constructor; [|now apply IH]. exact (BC r m y z (proj2 (ST r) m x y H N1) N2).
  - cbn [NormalizeProofs.value_of] in VV. destruct (nz m x) as [y|] eqn:N; [|discriminate VV]. injection VV as <-. inversion F as [|r w rs' l H F' E1 E2]; subst. inversion F'; subst. cbn [items_of].
    split; [constructor; [exact (BC r m x y H N) | constructor]|]. split; [intros [l X]; discriminate X|]. intros _. exists y. split; [reflexivity | exact (CO r m x y H N)].
Qed.
Lemma again rs l : Forall2 R' rs l -> Forall2 R rs l.
Proof. induction 1 as [|r w rs l H F IH]; constructor; [now apply (ki_again _ _ K) | exact IH]. Qed.
Definition several (rs : list xml) (u : val) : Prop := Forall2 R rs (items_of u) /\ ((exists l, u = VList l) \/ exists x, u = VDict x).
Lemma several_of cs : cs <> [] -> (forall c, In c cs -> R c (V c)) -> several cs (one_or_list (map V cs)).
Proof.
  intros NE RS. assert (FR : Forall2 R cs (map V cs)).
  { clear - RS. induction cs as [|c cs IH]; constructor; [apply RS; now left | apply IH; intros c' I; apply RS; now right]. }
  destruct cs as [|c0 [|c1 cs]]; [contradiction| |].
  - cbn [map one_or_list]. destruct (proj1 (ki_steady _ _ K c0) _ (RS c0 (or_introl eq_refl))) as [x EX]. split; [|right; eauto]. rewrite EX. cbn [items_of]. rewrite <- EX. exact FR.
  - cbn [map one_or_list]. split; [exact FR | left; eauto].
Qed.

(** Reports *)
Definition reports (rs : list xml) : field :=
  mk_field "reports" ["report"; "reports"] (fun q u => several rs u /\ (q = "reports" -> exists l, u = VList l)) (fun u => exists l, u = VList l /\ Forall2 R' rs l).
Lemma carried_reports rs : carried (reports rs).
Proof.
  intros m k u new M E S [[F KU] LL] (v & VV & MA). cbn [fst snd f_src f_out f_kind f_done reports] in *. rewrite E in VV.
  destruct (items_each rs m (fkey k) u v F KU VV) as (A & B & C).
  assert (X : exists l, new = [("reports", VList l)] /\ Forall2 R' rs l).
  { destruct S as [S|[S|[]]].
    - rewrite <- S in MA. unfold made, eventual, news in MA. change (listing "report") with true in MA. cbn [andb String.eqb Ascii.eqb Bool.eqb append] in MA. injection MA as <-. now exists (items_of v).
    - rewrite <- S in MA. destruct (B (LL (eq_sym S))) as [l ->]. rewrite made_leaf in MA by reflexivity. injection MA as <-. now exists l. }
  destruct X as (l & -> & FL). split; [apply vmem_one|]. intros q w [[= <- <-]|[]] _. split; [split; [split; [now apply again | left; eauto] | eauto]|]. intros _. now exists l.
Qed.
(** Intervals *)
Definition an_interval (rs : list xml) : field := mk_field "interval" ["interval"] (fun _ u => several rs u) (fun u => Forall2 R' rs (items_of u)).
Lemma carried_interval rs : carried (an_interval rs).
Proof.
  intros m k u new M E [S|[]] [F KU] (v & VV & MA). cbn [fst snd f_src f_out f_kind f_done an_interval] in *. rewrite E, <- S in *.
  destruct (items_each rs m "interval" u v F KU VV) as (A & B & C).
  assert (X : new = [("interval", v)] /\ ((exists l, v = VList l) \/ exists x, v = VDict x)).
  { destruct KU as [KU|KU].
    - destruct (B KU) as [l ->]. rewrite made_leaf in MA by reflexivity. injection MA as <-. split; [reflexivity | left; eauto].
    - destruct (C KU) as (y & -> & CY). rewrite made_compact in MA by (reflexivity || exact CY). injection MA as <-. split; [reflexivity | right; eauto]. }
  destruct X as [-> KV]. split; [apply vmem_one|]. intros q w [[= <- <-]|[]] _. split; [split; [now apply again | exact KV] | now intros _].
Qed.
Definition row (rs : list xml) (u : val) : Prop := like ["interval"] [an_interval rs] u.
Definition intervals (rs : list xml) : field :=
  mk_field "intervals" ["intervals"] (fun _ u => row rs u \/ exists l, u = VList l /\ Forall2 R rs l) (fun u => exists l, u = VList l /\ Forall2 R' rs l).
Lemma carried_intervals rs : carried (intervals rs).
Proof.
  intros m k u new M E [S|[]] F (v & VV & MA). cbn [fst snd f_src f_out f_kind f_done intervals] in *. rewrite E, <- S in *.
  assert (X : exists l, new = [("intervals", VList l)] /\ Forall2 R' rs l).
  { destruct F as [(x & -> & H)|(l & -> & F)].
    - cbn [NormalizeProofs.value_of] in VV. destruct (nz m x) as [y|] eqn:N; [|discriminate VV]. injection VV as <-.
      assert (CA : Forall carried [an_interval rs]) by (constructor; [now apply carried_interval | constructor]).
      destruct (like_kept num ["interval"] [an_interval rs] m x y eq_refl CA eq_refl (ex_intro _ x (conj eq_refl H)) N) as (LK & TH & ON & FX).
      pose proof (Forall_inv TH) as (w & GW & DW). cbn [f_out f_done an_interval] in GW, DW.
      pose proof (few ["interval"] y (nodup_nz num m x y (closed_lacks ["interval"] x eq_refl (proj1 H)) N) ON FX) as LE. cbn [length] in LE.
      destruct y as [|[k' w'] [|]]; [discriminate GW | | cbn [length] in LE; lia].
      assert (KE : k' = "interval" /\ w' = w). { apply vget_in in GW. destruct GW as [[= -> ->]|[]]. now split. } destruct KE as [-> ->].
      rewrite made_general in MA by reflexivity. unfold unnest in MA.
      change (vmem "duration" [("interval", w)]) with false in MA. change (vmem "intervals" [("interval", w)]) with false in MA. change (butlast "intervals") with "interval" in MA.
      change (vmem "interval" [("interval", w)]) with true in MA. cbn [andb length Nat.eqb] in MA. cbv iota zeta in MA. change (vget "interval" [("interval", w)]) with (Some w) in MA. cbn [bind] in MA.
      exists (items_of w). split; [|exact DW]. destruct w; injection MA as <-; reflexivity.
    - destruct (items_each rs m "intervals" (VList l) v F (or_introl (ex_intro _ l eq_refl)) VV) as (A & B & _). destruct (B (ex_intro _ l eq_refl)) as [l' ->].
      rewrite made_leaf in MA by reflexivity. injection MA as <-. exists l'. split; [reflexivity | exact A]. }
  destruct X as (l & -> & FL). split; [apply vmem_one|]. intros q w [[= <- <-]|[]] _. split; [right; exists l; split; [reflexivity | now apply again] | intros _; now exists l].
Qed.
End Items.

(** ** From elements to dicts *)
Lemma held_all ps cs d f nm T : shaped uri ps cs d -> held (kappa nm) d -> leads ps f nm T -> normalize_key (plain_name nm) = kappa nm ->
  ((forall c, In c (filter (fun c => String.eqb (xml_name c) nm) cs) -> valid' c T = true) -> filter (fun c => String.eqb (xml_name c) nm) cs <> [] -> f_kind f (kappa nm) (one_or_list (map V (filter (fun c => String.eqb (xml_name c) nm) cs)))) -> has d f.
Proof.
  intros S N L NK KD. assert (IN : In (kappa nm) (f_src f)).
  { assert (J : In (nm, T) (filter (fun a => inb (kappa (fst a)) (f_src f)) (all_alts ps))) by (rewrite L; now left). apply filter_In in J as [_ J]. now apply inb_in in J. }
  split.
  - destruct N as (k & v & I & M & E). exists k, v. split; [exact I|]. split; [exact M|]. now rewrite E.
  - intros k u I M J. destruct (en_from _ _ (sh_entries _ _ _ _ S) k u I) as [?|(_ & l & NE & EL & ->)]; [congruence|].
    assert (A : forall c, In c cs -> plain_name (xml_name c) = k -> xml_name c = nm /\ valid' c T = true).
    { intros c Ic P. destruct (sh_type _ _ _ _ S c Ic) as (t & At & Vt). assert (Q : In (xml_name c, t) (filter (fun a => inb (kappa (fst a)) (f_src f)) (all_alts ps))).
      { apply filter_In. split; [exact At|]. cbn [fst]. unfold kappa. rewrite P. now apply inb_in. }
      rewrite L in Q. destruct Q as [Q|[]]. injection Q as <- <-. now repeat split. }
    destruct l as [|c l]; [contradiction|]. assert (Bc : In c (filter (fun c => plain_name (xml_name c) =? k) cs)) by (rewrite <- EL; now left). apply filter_In in Bc as [B1 B2]. apply String.eqb_eq in B2.
    assert (KE : k = plain_name nm) by (destruct (A c B1 B2) as [B3 _]; now rewrite B3 in B2).
    assert (FE : filter (fun c => plain_name (xml_name c) =? k) cs = filter (fun c => xml_name c =? nm) cs).
    { clear - A KE. induction cs as [|c cs IH]; [reflexivity|]. cbn [filter]. rewrite IH by (intros c' I'; apply A; now right). destruct (plain_name (xml_name c) =? k) eqn:E1.
      - apply String.eqb_eq in E1. rewrite (proj1 (A c (or_introl eq_refl) E1)), String.eqb_refl. reflexivity.
      - destruct (xml_name c =? nm) eqn:E2; [|reflexivity]. apply String.eqb_eq in E2. rewrite E2, <- KE, String.eqb_refl in E1. discriminate E1. }
    rewrite EL, FE. clear B2. subst k. change (fkey (plain_name nm)) with (kappa nm). split; [exact NK|]. apply KD.
    + intros c' I'. apply filter_In in I' as [I1 I2]. apply String.eqb_eq in I2. apply (A c' I1). now rewrite I2.
    + rewrite <- FE, <- EL. discriminate.
Qed.
Lemma held_named ps cs d nm : shaped uri ps cs d -> unmarked ps = true -> filter (fun c => String.eqb (xml_name c) nm) cs <> [] -> held (kappa nm) d.
Proof.
  intros S U NE. destruct (filter _ cs) as [|c l] eqn:F; [contradiction|]. assert (I : In c (filter (fun c => xml_name c =? nm) cs)) by (rewrite F; now left). apply filter_In in I as [I E]. apply String.eqb_eq in E.
  rewrite <- E. exact (held_by uri ps cs d c S U I).
Qed.

(** ** The message, with what is claimed of each report left open *)
Definition rep_keys : list string := ["dtstart"; "duration"; "intervals"; "report_id"; "report_description"; "report_descriptions"; "report_request_id"; "report_specifier_id"; "report_name"; "created_date_time"].
Definition bare_keys : list string := ["dtstart"; "duration"; "report_id"; "report_description"; "report_descriptions"; "report_request_id"; "report_specifier_id"; "report_name"; "created_date_time"].
Definition keys_of (r : xml) : list string := match named (in_strm "intervals") r with [] => bare_keys | _ => rep_keys end.
Lemma keys_closed r : closed (keys_of r) = true.
Proof. unfold keys_of. destruct (named _ r); vm_compute; reflexivity. Qed.
Definition request_of (r : xml) : string -> Prop := raw [in_ei "reportRequestID"] r.
Definition rep_fields (more : xml -> list field) (r : xml) : list field := a_read num "report_request_id" (request_of r) :: a_scalar "report_specifier_id" anything :: more r.
Definition rep (more : xml -> list field) (r : xml) (v : val) : Prop := like (keys_of r) (rep_fields more r) v.
Definition rep_read (more : xml -> list field) (r : xml) : val -> Prop := settled (keys_of r) (rep_fields more r).
Definition msg_keys : list string := ["request_id"; "report"; "reports"; "ven_id"].
Section Reports.
Context (more : xml -> list field) (CM : forall r, Forall carried (more r)) (AM : forall r, forallb (apart (keys_of r)) (more r) = true).
Lemma carried_rep r : Forall carried (rep_fields more r).
Proof. constructor; [now apply carried_read|]. constructor; [now apply carried_scalar | apply CM]. Qed.
Lemma apart_rep r : forallb (apart (keys_of r)) (rep_fields more r) = true.
Proof. unfold rep_fields. cbn [forallb]. rewrite AM. unfold keys_of. destruct (named _ r); reflexivity. Qed.
Lemma kind_rep : kind_of (rep more) (rep_read more).
Proof.
  constructor.
  - intros r. apply steady_like; [apply keys_closed | apply carried_rep | apply apart_rep].
  - intros r. apply becomes_settled; [apply keys_closed | apply carried_rep | apply apart_rep].
  - now intros r v [H _].
  - intros r m x y H N. apply (like_compact num (keys_of r) (rep_fields more r) m x y (a_read num "report_request_id" (request_of r)) (a_scalar "report_specifier_id" anything)); try assumption; [apply keys_closed | apply carried_rep | apply apart_rep | now left | right; now left | discriminate | unfold keys_of; destruct (named _ r); reflexivity].
Qed.
Definition fulfilled (r : xml) : Prop := match r with Elem _ _ _ cs => match oadr_oadrReportType with Complex _ ps => forall d, shaped uri ps cs d -> Forall (has d) (more r) | _ => True end end.
Lemma rep_of r : valid' r oadr_oadrReportType = true -> fulfilled r -> rep more r (V r).
Proof.
  intros H FU. assert (O : forall c, In c (parts r) -> xml_name c = in_ei "reportRequestID" -> request_of r (text_in c)) by (intros c I NM; exists c; split; [apply part_one; now apply in_named | reflexivity]).
  unfold rep. destruct r as [n a t cs]. cbn [parts] in O. unfold fulfilled in FU. unfold oadr_oadrReportType in H, FU.
  pose proof (fun U R => shaped_required uri _ _ n a t cs U R H) as X. destruct (X eq_refl eq_refl) as (d & E & S). clear X. rewrite E. exists d. split; [reflexivity|]. split.
  { unfold keys_of, named. cbn [parts]. destruct (filter (fun c => xml_name c =? in_strm "intervals") cs) as [|c0 l0] eqn:EF; [|apply (shaped_only uri _ cs d rep_keys S); reflexivity].
    apply (only_without uri _ cs d bare_keys (in_strm "intervals") S); [reflexivity|]. intros c I NM. assert (J : In c (filter (fun c => xml_name c =? in_strm "intervals") cs)) by (apply filter_In; split; [exact I | now apply String.eqb_eq]). rewrite EF in J. exact J. }
  constructor; [|constructor].
  - eapply (has_one uri _ cs d (a_read num "report_request_id" _) (in_ei "reportRequestID") (Simple [] Text) S); try reflexivity. intros c J NM VC. apply (text_stands uri num _ _ c (Simple [] Text) eq_refl VC). now apply O.
  - eapply (has_scalar uri _ cs d "report_specifier_id" anything (in_ei "reportSpecifierID") (Simple [] Text) S); try reflexivity.
  - now apply FU.
Qed.
Lemma message_of m d depth p : valid' m oadr_oadrUpdateReportType = true -> V m = VDict d -> nz depth d = Ok p -> (forall r, In r (reports_in m) -> fulfilled r) ->
  (reports_in m = [] /\ vget "reports" p = None) \/ (reports_in m <> [] /\ exists l, vget "reports" p = Some (VList l) /\ Forall2 (rep_read more) (reports_in m) l).
Proof.
  destruct m as [n a t cs]. unfold reports_in, named. cbn [parts]. intros H E N FU. unfold oadr_oadrUpdateReportType in H. pose proof (fun U R => shaped_required uri _ _ n a t cs U R H) as X. destruct (X eq_refl eq_refl) as (d' & E' & S). clear X H. rewrite E in E'. injection E' as <-.
  destruct (filter (fun c => xml_name c =? in_oadr "oadrReport") cs) as [|r0 rs0] eqn:EF.
  - left. split; [reflexivity|]. assert (NO : forall c, In c cs -> xml_name c <> in_oadr "oadrReport").
    { intros c I NM. assert (J : In c (filter (fun c => xml_name c =? in_oadr "oadrReport") cs)) by (apply filter_In; split; [exact I | now apply String.eqb_eq]). rewrite EF in J. exact J. }
    assert (ON : only ["request_id"; "ven_id"] d) by (apply (only_without uri _ cs d _ (in_oadr "oadrReport") S); [reflexivity | exact NO]).
    destruct (like_kept num ["request_id"; "ven_id"] [] depth d p eq_refl (Forall_nil _) eq_refl (ex_intro _ d (conj eq_refl (conj ON (Forall_nil _)))) N) as (_ & _ & OP & FX).
    apply vmem_none. exact (only_not _ "reports" p OP FX eq_refl).
  - right. split; [discriminate|]. rewrite <- EF in *. assert (NE : filter (fun c => xml_name c =? in_oadr "oadrReport") cs <> []) by (rewrite EF; discriminate). clear EF r0 rs0.
    set (rs := filter (fun c => xml_name c =? in_oadr "oadrReport") cs) in *.
    assert (HF : has d (reports (rep more) (rep_read more) rs)).
    { eapply (held_all _ cs d _ (in_oadr "oadrReport") oadr_oadrReportType S); [apply (held_named _ cs d (in_oadr "oadrReport") S); [reflexivity | exact NE] | reflexivity | reflexivity|].
      intros VA _. fold rs in VA |- *. split; [|discriminate]. apply (several_of _ _ kind_rep rs NE). intros c I. apply rep_of; [now apply VA | now apply FU]. }
    assert (ON : only msg_keys d) by (apply (shaped_only uri _ cs d msg_keys S); reflexivity).
    assert (CA : Forall carried [reports (rep more) (rep_read more) rs]) by (constructor; [apply carried_reports; apply kind_rep | constructor]).
    destruct (like_kept num msg_keys _ depth d p eq_refl CA eq_refl (ex_intro _ d (conj eq_refl (conj ON (Forall_cons _ HF (Forall_nil _))))) N) as (_ & TH & _ & _).
    pose proof (Forall_inv TH) as (w & GW & l & -> & FL). exists l. split; [exact GW | exact FL].
Qed.
End Reports.

(** ** One interval *)
Definition rid_of (i : xml) : string -> Prop := raw [in_oadr "oadrReportPayload"; in_ei "rID"] i.
Definition number_in (i : xml) : string -> Prop := raw [in_oadr "oadrReportPayload"; in_ei "payloadFloat"; in_ei "value"] i.
Definition floated (P : string -> Prop) (u : val) : Prop := exists s x, P s /\ interpret "value" (text_val s) = Ok x /\ to_float num x = Ok u.
Lemma to_float_float x u : to_float num x = Ok u -> exists f, u = VFloat f.
Proof. destruct x; cbn [to_float]; try discriminate; try (intros [= <-]; eauto). destruct (float_ok num s); [intros [= <-]; eauto | discriminate]. Qed.
Definition a_floated (P : string -> Prop) : field := mk_field "value" ["value"] (fun _ u => floated P u) (floated P).
Lemma carried_floated P : carried (a_floated P).
Proof.
  intros m k u new M E [S|[]] F (v & VV & MA). cbn [fst snd f_src f_out f_kind f_done a_floated] in *. rewrite E, <- S in *. pose proof F as (s & x & _ & _ & T). destruct (to_float_float x u T) as [f ->].
  rewrite value_scalar in VV by reflexivity. rewrite interpret_done in VV by reflexivity. injection VV as <-. rewrite made_leaf in MA by reflexivity. injection MA as <-. split; [apply vmem_one|]. intros q w [[= <- <-]|[]] _. now split.
Qed.
Definition a_number (P : string -> Prop) : field :=
  mk_field "payload_float" ["payload_float"] (fun _ u => like ["value"] [a_read num "value" P] u) (fun u => exists w, u = VDict [("value", w)] /\ done num "value" P w).
Lemma carried_number P : carried (a_number P).
Proof.
  intros m k u new M E [S|[]] (x & -> & H) (v & VV & MA). cbn [fst snd f_src f_out f_kind f_done a_number] in *. rewrite E, <- S in *.
  cbn [NormalizeProofs.value_of] in VV. destruct (nz m x) as [y|] eqn:N; [|discriminate VV]. injection VV as <-.
  assert (CA : Forall carried [a_read num "value" P]) by (constructor; [now apply carried_read | constructor]).
  destruct (like_kept num ["value"] _ m x y eq_refl CA eq_refl (ex_intro _ x (conj eq_refl H)) N) as (LK & TH & ON & FX).
  pose proof (Forall_inv TH) as (w & GW & DW). cbn [f_out f_done a_read] in GW, DW.
  pose proof (few ["value"] y (nodup_nz num m x y (closed_lacks ["value"] x eq_refl (proj1 H)) N) ON FX) as LE. cbn [length] in LE.
  destruct y as [|[k' w'] [|]]; [discriminate GW | | cbn [length] in LE; lia].
  assert (KE : k' = "value" /\ w' = w). { apply vget_in in GW. destruct GW as [[= -> ->]|[]]. now split. } destruct KE as [-> ->].
  rewrite made_general in MA by reflexivity. assert (U : unnest num "payload_float" (VDict [("value", w)]) = Ok (Some (VDict [("value", w)]))) by reflexivity.
  rewrite U in MA. cbn [bind] in MA. injection MA as <-. split; [apply vmem_one|]. intros q w0 [[= <- <-]|[]] _. split; [exact LK|]. intros _. now exists w.
Qed.
Definition pay_keys : list string := ["r_id"; "confidence"; "accuracy"; "payload_float"; "payload_resource_status"; "data_quality"].
Definition paid_keys : list string := ["r_id"; "confidence"; "accuracy"; "payload_resource_status"; "data_quality"; "value"].
Definition pay_fields (i : xml) : list field := [a_read num "r_id" (rid_of i); a_number (number_in i)].
Definition paid_fields (i : xml) : list field := [a_read num "r_id" (rid_of i); a_floated (number_in i)].
Lemma carried_pay i : Forall carried (pay_fields i).
Proof. constructor; [now apply carried_read|]. constructor; [apply carried_number | constructor]. Qed.
Lemma carried_paid i : Forall carried (paid_fields i).
Proof. constructor; [now apply carried_read|]. constructor; [apply carried_floated | constructor]. Qed.
Definition a_payload (i : xml) : field :=
  mk_field "report_payload" ["report_payload"] (fun _ u => like pay_keys (pay_fields i) u \/ like paid_keys (paid_fields i) u) (fun u => exists y, u = VDict y /\ there (paid_fields i) y).
Lemma in_set q x (d : vdict) k v : In (k, v) (vset q x d) -> (k = q /\ v = x) \/ In (k, v) d.
Proof.
  unfold vset. induction d as [|[k' v'] d IH]; cbn [set]; [intros [[= <- <-]|[]]; now left|]. destruct (q =? k') eqn:E.
  - apply String.eqb_eq in E. subst k'. intros [[= <- <-]|I]; [now left | right; now right].
  - intros [I|I]; [right; now left|]. destruct (IH I) as [A|A]; [now left | right; now right].
Qed.
Lemma in_del q (d : vdict) k v : NoDup (keys d) -> In (k, v) (vdel q d) -> In (k, v) d /\ k <> q.
Proof.
  unfold vdel. induction d as [|[k' v'] d IH]; cbn [del]; [intros _ []|]. intros ND I. inversion ND as [|? ? NI ND']; subst. destruct (q =? k') eqn:E.
  - apply String.eqb_eq in E. subst k'. split; [now right|]. intros ->. apply NI. apply in_map_iff. now exists (q, v).
  - destruct I as [I|I].
    + injection I as <- <-. split; [now left|]. apply String.eqb_neq in E. congruence.
    + destruct (IH ND' I) as [A B]. split; [now right | exact B].
Qed.
Lemma del_in q (d : vdict) k v : In (k, v) d -> k <> q -> In (k, v) (vdel q d).
Proof.
  unfold vdel. induction d as [|[k' v'] d IH]; cbn [del]; [intros []|]. intros I N. destruct (q =? k') eqn:E.
  - apply String.eqb_eq in E. subst k'. destruct I as [[= <- <-]|I]; [contradiction | exact I].
  - destruct I as [I|I]; [now left | right; now apply IH].
Qed.
Lemma set_in q x (d : vdict) k v : In (k, v) d -> k <> q -> In (k, v) (vset q x d).
Proof.
  unfold vset. induction d as [|[k' v'] d IH]; cbn [set]; [intros []|]. intros I N. destruct (q =? k') eqn:E.
  - apply String.eqb_eq in E. subst k'. destruct I as [[= <- <-]|I]; [contradiction | now right].
  - destruct I as [I|I]; [now left | right; now apply IH].
Qed.
Lemma get_in_del q k (d : vdict) v : vget k d = Some v -> k <> q -> vget k (vdel q d) = Some v.
Proof.
  unfold vdel, vget. induction d as [|[k' v'] d IH]; cbn [del get]; [discriminate|]. intros G N. destruct (q =? k') eqn:E.
  - apply String.eqb_eq in E. subst k'. destruct (k =? q) eqn:E2; [apply String.eqb_eq in E2; contradiction | exact G].
  - cbn [get]. destruct (k =? k'); [exact G | now apply IH].
Qed.
Lemma get_set_other q x k (d : vdict) : k <> q -> vget k (vset q x d) = vget k d.
Proof.
  intros N. unfold vset, vget. induction d as [|[k' v'] d IH]; cbn [set get]; [destruct (k =? q) eqn:E; [apply String.eqb_eq in E; contradiction | reflexivity]|].
  destruct (q =? k') eqn:E; cbn [get]; [|now rewrite IH]. apply String.eqb_eq in E. subst k'. destruct (k =? q) eqn:E2; [apply String.eqb_eq in E2; contradiction | reflexivity].
Qed.
Lemma get_set_same q x (d : vdict) : vget q (vset q x d) = Some x.
Proof. unfold vset, vget. induction d as [|[k' v'] d IH]; cbn [set get]; [now rewrite String.eqb_refl|]. destruct (q =? k') eqn:E; cbn [get]; now rewrite E. Qed.
Lemma carried_payload i : carried (a_payload i).
Proof.
  intros m k u new M E [S|[]] F (v & VV & MA). cbn [fst snd f_src f_out f_kind f_done a_payload] in *. rewrite E, <- S in *.
  assert (X : exists y, new = [("report_payload", VDict y)] /\ like paid_keys (paid_fields i) (VDict y) /\ there (paid_fields i) y).
  { destruct F as [(x & -> & H)|(x & -> & H)]; cbn [NormalizeProofs.value_of] in VV; (destruct (nz m x) as [y|] eqn:N; [|discriminate VV]); injection VV as <-; rewrite made_general in MA by reflexivity.
    - destruct (like_kept num pay_keys (pay_fields i) m x y eq_refl (carried_pay i) eq_refl (ex_intro _ x (conj eq_refl H)) N) as (LK & TH & ON & FX).
      pose proof (nodup_nz num m x y (closed_lacks pay_keys x eq_refl (proj1 H)) N) as ND.
      pose proof (Forall_inv TH) as (r & GR & DR). pose proof (Forall_inv (Forall_inv_tail TH)) as (b & GB & w & -> & DW). cbn [f_out f_done a_read a_number] in GR, DR, GB.
      assert (NM : forall q, inb q pay_keys = false -> vmem q y = false) by (intros q Q; exact (only_not pay_keys q y ON FX Q)).
      unfold unnest in MA. rewrite (NM "duration" eq_refl), (NM "report_payload" eq_refl), (NM (butlast "report_payload") eq_refl) in MA. cbn [andb] in MA.
      change (existsb (String.eqb "report_payload") ["signal_payload"; "current_value"]) with false in MA. change ("report_payload" =? "report_payload") with true in MA. cbv iota zeta in MA.
      unfold report_value in MA. rewrite GB in MA. change (contains_value (VDict [("value", w)])) with (Ok true) in MA. change (the_value (VDict [("value", w)])) with (Ok w) in MA. cbn [bind] in MA.
      destruct (to_float num w) as [fl|] eqn:TF; [|discriminate MA]. cbn [bind] in MA. injection MA as <-.
      assert (FL : floated (number_in i) fl) by (destruct DW as (s & HP & HI); exists s, w; now repeat split).
      exists (vset "value" fl (vdel "payload_float" y)). split; [reflexivity|].
      assert (IN : forall k' v', In (k', v') (vset "value" fl (vdel "payload_float" y)) -> (k' = "value" /\ v' = fl) \/ (In (k', v') y /\ k' <> "payload_float")).
      { intros k' v' I. destruct (in_set _ _ _ _ _ I) as [A|A]; [now left | right; exact (in_del _ _ _ _ ND A)]. }
      destruct LK as (y' & EY & _ & HF). injection EY as <-. split.
      + eexists. split; [reflexivity|]. split.
        * intros k' v' I. destruct (IN _ _ I) as [[-> ->]|[A B]]; [right; do 5 right; now left|]. destruct (FX _ _ A) as [F1 F2]. destruct (ON _ _ A) as [O|O]; [congruence|]. rewrite F1 in *. right.
          cbn in O. repeat (destruct O as [<-|O]; [first [contradiction (B eq_refl) | cbn; tauto]|]). destruct O.
        * constructor; [|constructor; [|constructor]].
          -- destruct (Forall_inv HF) as [_ H2]. split.
             ++ exists "r_id", r. split; [|split; [reflexivity | now left]]. apply set_in; [|discriminate]. apply del_in; [now apply vget_in | discriminate].
             ++ intros k' u' I MK [K|[]]. destruct (IN _ _ I) as [[-> ->]|[A B]]; [discriminate K|]. apply (H2 k' u' A MK). now left.
          -- split.
             ++ exists "value", fl. split; [apply in_vset|]. split; [reflexivity | now left].
             ++ intros k' u' I MK [K|[]]. destruct (IN _ _ I) as [[-> ->]|[A B]]; [now split|]. exfalso. destruct (FX _ _ A) as [F1 _]. rewrite F1 in K. subst k'. assert (Z : vmem "value" y = false) by now apply NM. destruct (vmem_in "value" y) as [_ Z']. rewrite Z' in Z by eauto. discriminate Z.
      + constructor; [|constructor; [|constructor]].
        * exists r. split; [|exact DR]. cbn [f_out a_read]. rewrite get_set_other by discriminate. apply get_in_del; [exact GR | discriminate].
        * exists fl. split; [apply get_set_same | exact FL].
    - destruct (like_kept num paid_keys (paid_fields i) m x y eq_refl (carried_paid i) eq_refl (ex_intro _ x (conj eq_refl H)) N) as (LK & TH & ON & FX).
      assert (NM : forall q, inb q paid_keys = false -> vmem q y = false) by (intros q Q; exact (only_not paid_keys q y ON FX Q)).
      unfold unnest in MA. rewrite (NM "duration" eq_refl), (NM "report_payload" eq_refl), (NM (butlast "report_payload") eq_refl) in MA. cbn [andb] in MA.
      change (existsb (String.eqb "report_payload") ["signal_payload"; "current_value"]) with false in MA. change ("report_payload" =? "report_payload") with true in MA. cbv iota zeta in MA.
      unfold report_value in MA. rewrite (vmem_none _ _ (NM "payload_float" eq_refl)), (vmem_none _ _ (NM "payload_int" eq_refl)) in MA. cbn [bind] in MA. injection MA as <-.
      exists y. split; [reflexivity|]. now split. }
  destruct X as (y & -> & LY & TY). split; [apply vmem_one|]. intros q w [[= <- <-]|[]] _. split; [now right|]. intros _. now exists y.
Qed.
Definition begun (i : xml) : string -> Prop := raw [in_xcal "dtstart"; in_xcal "date-time"] i.
Definition timed_by (P : string -> Prop) (u : val) : Prop := exists s, P s /\ interpret "dtstart" (text_val s) = Ok u.
Lemma time_again s u : interpret "dtstart" (text_val s) = Ok u -> interpret "dtstart" u = Ok u.
Proof.
  unfold text_val. destruct (flatten_xml s) as [|ch r]; [intros [= <-]; reflexivity|]. set (t := String ch r). intros H. pose proof H as H0. unfold Normalize.interpret in H.
  change (existsb (String.eqb "dtstart") ["duration"; "startafter"; "max_period"; "min_period"]) with false in H. change (contains "date_time" "dtstart" || ("dtstart" =? "dtstart")) with true in H. cbv iota in H.
  unfold parse_datetime in H. destruct (dt_match t) as [[[[[[[y mo] d] h] mi] se] micro]|] eqn:E.
  - destruct (mk_datetime _ _ _ _ _ _ _ _); [|discriminate H]. cbn [bind] in H. injection H as <-. reflexivity.
  - cbn [bind] in H. injection H as <-. exact H0.
Qed.
Definition a_when (P : string -> Prop) : field := mk_field "dtstart" ["dtstart"] (fun _ u => (exists s, P s /\ u = VDict [("date-time", text_val s)]) \/ timed_by P u) (timed_by P).
Lemma carried_when P : carried (a_when P).
Proof.
  intros m k u new M E [S|[]] F (v & VV & MA). cbn [fst snd f_src f_out f_kind f_done a_when] in *. rewrite E, <- S in *.
  assert (X : exists w, new = [("dtstart", w)] /\ timed_by P w).
  { destruct F as [(s & H & ->)|T].
    - cbn [NormalizeProofs.value_of] in VV. destruct (nz m [("date-time", text_val s)]) as [y|] eqn:N; [|discriminate VV]. injection VV as <-.
      destruct (single_nz num m "date-time" (text_val s) y eq_refl eq_refl eq_refl (text_val_scalar s) N) as (d & I & -> & SD). change (fkey "date-time") with "date_time" in MA.
      rewrite made_general in MA by reflexivity. assert (U : unnest num "dtstart" (VDict [("date_time", d)]) = Ok (Some d)) by reflexivity. rewrite U in MA. cbn [bind] in MA. injection MA as <-.
      exists d. split; [reflexivity|]. exists s. split; [exact H|]. rewrite <- I. reflexivity.
    - pose proof T as (s & H & I). pose proof (interpret_scalar num "dtstart" _ u (text_val_scalar s) I) as SC. rewrite value_scalar in VV by exact SC. rewrite (time_again s u I) in VV. injection VV as <-.
      rewrite made_leaf in MA; [|reflexivity|reflexivity|now destruct u]. injection MA as <-. now exists u. }
  destruct X as (w & -> & T). split; [apply vmem_one|]. intros q w' [[= <- <-]|[]] _. split; [now right | now intros _].
Qed.
Definition int_keys : list string := ["dtstart"; "duration"; "uid"; "signal_payload"; "gbpayload"; "report_payload"].
Definition int_fields (i : xml) : list field := [a_when (begun i); a_payload i].
Definition int (i : xml) (v : val) : Prop := like int_keys (int_fields i) v.
Definition int_read (i : xml) : val -> Prop := settled int_keys (int_fields i).
Lemma carried_int i : Forall carried (int_fields i).
Proof. constructor; [apply carried_when|]. constructor; [apply carried_payload | constructor]. Qed.
Lemma kind_int : kind_of int int_read.
Proof.
  constructor.
  - intros i. apply steady_like; [vm_compute; reflexivity | apply carried_int | reflexivity].
  - intros i. apply becomes_settled; [vm_compute; reflexivity | apply carried_int | reflexivity].
  - now intros i v [H _].
  - intros i m x y H N. apply (like_compact num int_keys (int_fields i) m x y (a_when (begun i)) (a_payload i)); try assumption; [vm_compute; reflexivity | apply carried_int | reflexivity | now left | right; now left | discriminate | reflexivity].
Qed.
Lemma part_three n n' n'' r c c' c'' : In c (named n r) -> In c' (named n' c) -> In c'' (named n'' c') -> part_of [n; n'; n''] r c''.
Proof. intros I J L. unfold part_of. cbn [fold_left flat_map]. rewrite app_nil_r. apply in_flat_map. exists c'. split; [|exact L]. apply in_flat_map. now exists c. Qed.
Lemma pay_of i q : In q (named (in_oadr "oadrReportPayload") i) -> named (in_ei "payloadFloat") q <> [] -> valid' q oadr_oadrReportPayloadType = true -> like pay_keys (pay_fields i) (V q).
Proof.
  intros IQ NE H.
  assert (A : forall c, In c (parts q) -> xml_name c = in_ei "rID" -> rid_of i (text_in c)) by (intros c I NM; exists c; split; [|reflexivity]; exact (part_two _ _ i q c IQ (in_named _ q c I NM))).
  assert (B : forall c c', In c (parts q) -> xml_name c = in_ei "payloadFloat" -> In c' (parts c) -> xml_name c' = in_ei "value" -> number_in i (text_in c')) by (intros c c' I NM I' NM'; exists c'; split; [|reflexivity]; exact (part_three _ _ _ i q c c' IQ (in_named _ q c I NM) (in_named _ c c' I' NM'))).
  destruct q as [n a t cs]. unfold named in NE. cbn [parts] in *. clear IQ. unfold oadr_oadrReportPayloadType in H.
  eapply like_of; [| |exact H| |]; [reflexivity | reflexivity | vm_compute; reflexivity|]. intros d S. constructor; [|constructor; [|constructor]].
  - eapply (has_one uri _ cs d (a_read num "r_id" _) (in_ei "rID") (Simple [] Text) S); try reflexivity. intros c J NM VC. apply (text_stands uri num _ _ c (Simple [] Text) eq_refl VC). now apply A.
  - eapply (held_has uri _ cs d (a_number (number_in i)) (in_ei "payloadFloat") ei_PayloadFloatType S); [apply (held_named _ cs d (in_ei "payloadFloat") S); [reflexivity | exact NE] | reflexivity | reflexivity|].
    intros l NL AL ON. destruct (ON eq_refl) as [c ->]. destruct (AL c (or_introl eq_refl)) as (IC & NC & VC). cbn [map one_or_list f_kind a_number]. specialize (fun c' => B c c' IC NC). clear - B VC.
    destruct c as [n a t cs]. cbn [parts] in B. unfold ei_PayloadFloatType in VC. eapply like_of; [| |exact VC| |]; [reflexivity | reflexivity | vm_compute; reflexivity|]. intros d S. constructor; [|constructor].
    eapply (has_one uri _ cs d (a_read num "value" _) (in_ei "value") (Simple [] Float) S); try reflexivity. intros c J NM VC'. apply (text_stands uri num _ _ c (Simple [] Float) eq_refl VC'). now apply B.
Qed.
Lemma int_of i : valid' i ei_IntervalType = true -> measurement i -> int i (V i).
Proof.
  intros H (NS & q & EQ & NF). assert (Q : valid' q oadr_oadrReportPayloadType = true -> like pay_keys (pay_fields i) (V q)) by (intros VQ; apply pay_of; [rewrite EQ; now left | exact NF | exact VQ]).
  assert (W : forall c, In c (parts i) -> xml_name c = in_xcal "dtstart" -> valid' c xcal_dtstart_element = true -> exists s, begun i s /\ V c = VDict [("date-time", text_val s)]).
  { intros c IC NC VC. destruct c as [n a t cs]. destruct (sole_of uri n a t cs _ _ VC) as (c & -> & -> & NM & VC' & E). change (plain_name (in_xcal "date-time")) with "date-time" in E.
    destruct (scalar_value uri c _ (eq_refl : scalar_ty (Simple [] xcal_DateTimeType) = true) VC') as (n' & s & -> & VS). exists s. split; [|now rewrite E, VS].
    exists (Elem n' [] s []). split; [|reflexivity]. eapply (part_two _ _ i); [apply in_named; [exact IC | exact NC]|]. apply in_named; [now left | exact NM]. }
  unfold int. set (fs := int_fields i). assert (FE : fs = [a_when (begun i); a_payload i]) by reflexivity. cbn [parts] in W. clearbody fs.
  destruct i as [n a t cs]. unfold named in NS, EQ. cbn [parts] in NS, EQ. unfold ei_IntervalType in H.
  eapply like_of; [| |exact H| |]; [reflexivity | reflexivity | vm_compute; reflexivity|]. intros d S. rewrite FE. constructor; [|constructor; [|constructor]].
  - eapply (held_has uri _ cs d (a_when _) (in_xcal "dtstart") xcal_dtstart_element S); [apply (held_named _ cs d (in_xcal "dtstart") S); [reflexivity | exact NS] | reflexivity | reflexivity|].
    intros l NL AL ON. destruct (ON eq_refl) as [c ->]. destruct (AL c (or_introl eq_refl)) as (IC & NC & VC). cbn [map one_or_list f_kind a_when]. left. exact (W c IC NC VC).
  - eapply (held_all _ cs d _ (in_oadr "oadrReportPayload") oadr_oadrReportPayloadType S); [apply (held_named _ cs d (in_oadr "oadrReportPayload") S); [reflexivity | rewrite EQ; discriminate] | reflexivity | reflexivity|].
    rewrite EQ. intros VA _. cbn [map one_or_list f_kind a_payload]. left. apply Q. apply VA. now left.
Qed.
(** ** A report with its intervals *)
Definition rows (r : xml) : list field := match named (in_strm "intervals") r with [] => [] | _ => [intervals int int_read (intervals_in r)] end.
Lemma apart_rows r : forallb (apart (keys_of r)) (rows r) = true.
Proof. unfold rows, keys_of. destruct (named _ r); reflexivity. Qed.
Lemma carried_rows r : Forall carried (rows r).
Proof. unfold rows. destruct (named _ r); constructor; [apply carried_intervals; apply kind_int | constructor]. Qed.
Lemma row_of c : valid' c strm_intervals_element = true -> (forall i, In i (named (in_ei "interval") c) -> measurement i) -> row int int_read (named (in_ei "interval") c) (V c).
Proof.
  destruct c as [n a t cs]. unfold named. cbn [parts]. intros H ME. unfold strm_intervals_element in H. unfold row. eapply like_of; [| |exact H| |]; [reflexivity | reflexivity | vm_compute; reflexivity|]. intros d S. constructor; [|constructor].
  assert (HE : held (kappa (in_ei "interval")) d) by (apply (sh_held _ _ _ _ _ S); reflexivity).
  eapply (held_all _ cs d _ (in_ei "interval") ei_IntervalType S HE); [reflexivity | reflexivity|]. intros VA NE. cbn [f_kind an_interval]. apply (several_of _ _ kind_int _ NE). intros c I. apply int_of; [now apply VA | now apply ME].
Qed.
Lemma fulfilled_bare r : lacking r -> fulfilled rows r.
Proof. intros L. unfold fulfilled. destruct r as [n a t cs]. unfold oadr_oadrReportType. intros d _. unfold rows. rewrite L. constructor. Qed.
Lemma fulfilled_rows r : measured r -> fulfilled rows r.
Proof.
  intros [NE ME]. unfold fulfilled. destruct r as [n a t cs] eqn:ER. rewrite <- ER. unfold oadr_oadrReportType. intros d S. assert (RE : rows r = [intervals int int_read (intervals_in r)]) by (unfold rows; rewrite ER; destruct (named _ _); [contradiction NE; reflexivity | reflexivity]). rewrite RE. constructor; [|constructor].
  pose proof (at_most_one uri _ cs d (in_strm "intervals") S eq_refl) as ONE. unfold intervals_in in ME |- *. assert (EN : named (in_strm "intervals") r = filter (fun c => xml_name c =? in_strm "intervals") cs) by (rewrite ER; reflexivity).
  rewrite <- ER in NE, ME. rewrite <- EN in ONE. destruct (named (in_strm "intervals") r) as [|c [|]] eqn:EL; [contradiction | | cbn [length] in ONE; lia]. cbn [flat_map] in ME |- *. rewrite app_nil_r in *.
  eapply (held_all _ cs d _ (in_strm "intervals") strm_intervals_element S); [apply (held_named _ cs d (in_strm "intervals") S); [reflexivity | rewrite <- EN; discriminate] | reflexivity | reflexivity|].
  rewrite <- EN. intros VA _. cbn [map one_or_list f_kind intervals]. left. apply row_of; [apply VA; now left | exact ME].
Qed.

Lemma update_type n t : In (n, t) messages -> plain_name n = "oadrUpdateReport" -> t = oadr_oadrUpdateReportType.
Proof.
  intros I E. cbv [messages oadr_oadrSignedObject_element all_alts flat_map p_alts one_of fst snd app In] in I.
  repeat (destruct I as [I|I]; [pose proof (f_equal fst I) as X; pose proof (f_equal snd I) as Y; cbn [fst snd] in X, Y; clear I; subst n; first [vm_compute in E; discriminate E | exact (eq_sym Y)]|]). destruct I.
Qed.
Section Parsed.
Context (s : string) (x object : xml) (depth : nat) (p : vdict).
Context (RD : read_expanded s = Some x) (EN : envelope x object) (AL : alone uri object) (PA : parse_message num depth s = Ok ("oadrUpdateReport", p)).
Lemma update_parsed : exists m d, parts object = [m] /\ valid' m oadr_oadrUpdateReportType = true /\ V m = VDict d /\ nz depth d = Ok p.
Proof.
  destruct (UnnamedProofs.parse_object num uri s x object depth _ p RD EN AL PA) as (on & oa & ot & m & ty & d & -> & IM & VM & EK & EV & NZ). exists m, d. split; [reflexivity|].
  rewrite (update_type _ _ IM (eq_sym EK)) in VM. clear IM EK. split; [exact VM|]. split; [exact EV | exact NZ].
Qed.
(** Without a claim *)
Lemma update_read : exists m, parts object = [m] /\
  ((reports_in m = [] /\ vget "reports" p = None) \/ (reports_in m <> [] /\ exists l, vget "reports" p = Some (VList l) /\ Forall2 (rep_read (fun _ => [])) (reports_in m) l)).
Proof.
  destruct update_parsed as (m & d & PO & VM & EV & NZ). exists m. split; [exact PO|]. apply (message_of (fun _ => []) (fun _ => Forall_nil _) (fun _ => eq_refl) m d depth p VM EV NZ).
  intros [n a t cs] _. intros d' _. constructor.
Qed.
(** With measurements *)
Lemma update_measured m : parts object = [m] -> (forall r, In r (reports_in m) -> measured r \/ lacking r) ->
  (reports_in m = [] /\ vget "reports" p = None) \/ (reports_in m <> [] /\ exists l, vget "reports" p = Some (VList l) /\ Forall2 (rep_read rows) (reports_in m) l).
Proof.
  intros PO ME. destruct update_parsed as (m' & d & PO' & VM & EV & NZ). rewrite PO in PO'. injection PO' as <-. apply (message_of rows carried_rows apart_rows m d depth p VM EV NZ).
  intros r I. destruct (ME r I) as [M|M]; [now apply fulfilled_rows | now apply fulfilled_bare].
Qed.
End Parsed.

(** ** What is read *)
Lemma floated_worth P u : floated P u -> exists s, P s /\ worth (flatten_xml s) u.
Proof.
  intros (s & x & H & I & F). exists s. split; [exact H|]. unfold text_val in I. destruct (flatten_xml s) as [|ch r] eqn:E.
  - rewrite interpret_done in I by reflexivity. injection I as <-. discriminate F.
  - set (t := String ch r) in *. split.
    + intros z EZ. rewrite EZ in I. rewrite (interpret_int num "value" z eq_refl eq_refl) in I. injection I as <-. cbn [to_float] in F. rewrite EZ. congruence.
    + intros NI N1 N2. rewrite interpret_text in I by reflexivity. apply String.eqb_neq in N1, N2. rewrite N1, N2 in I. cbn [orb] in I.
      destruct (looks_int t) eqn:L; [apply looks_int_spec in L; contradiction|]. destruct (looks_float t).
      * destruct (float_ok num t); [|discriminate I]. injection I as <-. cbn [to_float] in F. congruence.
      * injection I as <-. cbn [to_float] in F. destruct (float_ok num t); [congruence | discriminate F].
Qed.
Lemma timed_moment P u : timed_by P u -> exists s, P s /\ moment_of (flatten_xml s) u.
Proof.
  intros (s & H & I). exists s. split; [exact H|]. unfold text_val in I. destruct (flatten_xml s) as [|ch r].
  - injection I as <-. right. split; [|reflexivity]. intros i R. apply reads_as_iff in R as (t & R & _). discriminate R.
  - set (t := String ch r) in *. unfold Normalize.interpret in I.
    change (existsb (String.eqb "dtstart") ["duration"; "startafter"; "max_period"; "min_period"]) with false in I. change (contains "date_time" "dtstart" || ("dtstart" =? "dtstart")) with true in I. cbv iota in I.
    destruct (parse_datetime t) as [[d|s']|] eqn:PD; [| |discriminate I]; cbn [bind] in I; injection I as <-.
    + left. exists d. split; [reflexivity|]. apply reads_as_iff. now exists d.
    + right. assert (E : s' = t). { unfold parse_datetime in PD. destruct (dt_match t) as [[[[[[[y mo] d] h] mi] se] micro]|]; [destruct (mk_datetime _ _ _ _ _ _ _ _); discriminate PD | congruence]. }
      subst s'. split; [|reflexivity]. intros i R. apply reads_as_iff in R as (t' & R & _). congruence.
Qed.
Lemma int_tells i v : int_read i v -> exists r, reading v r /\ tells i r.
Proof.
  intros [_ (y & -> & TH & _ & _)]. pose proof (Forall_inv TH) as (b & GB & DB). pose proof (Forall_inv (Forall_inv_tail TH)) as (u & GU & q & -> & TQ).
  pose proof (Forall_inv TQ) as (k & GK & DK). pose proof (Forall_inv (Forall_inv_tail TQ)) as (w & GW & DW). cbn [f_out f_done a_read a_when a_payload a_floated] in *. destruct (timed_moment _ b DB) as (sb & (cb & P3 & <-) & U3).
  destruct (done_understood num "r_id" _ k eq_refl eq_refl DK) as (sk & (ck & P1 & <-) & U1). destruct (floated_worth _ w DW) as (sw & (cw & P2 & <-) & U2).
  exists (k, (b, w)). split.
  - exists y, q. cbn [fst snd]. repeat (split; [first [reflexivity | assumption]|]). destruct DK as (s0 & _ & I0). pose proof (interpret_scalar num "r_id" _ k (text_val_scalar s0) I0) as SC. split; intros z ->; discriminate SC.
  - split; [|split]; cbn [fst snd]; eexists; (split; [|eassumption]); eexists; (split; [eassumption | apply flatten_flattening]).
Qed.
Lemma ints_tell is l : Forall2 int_read is l -> exists rs, Forall2 reading l rs /\ Forall2 tells is rs.
Proof.
  induction 1 as [|i v is l R F (rs & A & B)]; [exists []; split; constructor|]. destruct (int_tells i v R) as (r & C & D). exists (r :: rs). split; now constructor.
Qed.
Definition holds (r : xml) (v : val) : Prop :=
  exists d id t l rs, v = VDict d /\ vget "report_request_id" d = Some id /\ text_at [in_ei "reportRequestID"] r t /\ understood t id
    /\ vget "intervals" d = Some (VList l) /\ Forall2 reading l rs /\ Forall2 tells (intervals_in r) rs.
Lemma rep_holds r v : ~ lacking r -> rep_read rows r v -> holds r v.
Proof.
  intros NL. unfold rep_read, rep_fields, rows. unfold lacking in NL. destruct (named (in_strm "intervals") r) as [|c0 l0] eqn:EN; [contradiction|]. intros [_ (y & -> & TH & _ & _)]. pose proof (Forall_inv TH) as (k & GK & DK). pose proof (Forall_inv (Forall_inv_tail (Forall_inv_tail TH))) as (u & GU & l & -> & FL). cbn [f_out f_done a_read intervals] in *.
  destruct (done_understood num "report_request_id" _ k eq_refl eq_refl DK) as (sk & (ck & P1 & <-) & U1). destruct (ints_tell _ _ FL) as (rs & A & B).
  exists y, k, (flatten_xml (text_in ck)), l, rs. repeat (split; [first [reflexivity | assumption]|]). split; [exists ck; split; [exact P1 | apply flatten_flattening]|]. now repeat (split; [assumption|]).
Qed.
Lemma rep_lacks r v : lacking r -> rep_read rows r v -> exists d id, v = VDict d /\ vget "report_request_id" d = Some id /\ vget "intervals" d = None.
Proof.
  intros L. unfold rep_read, keys_of. rewrite L. intros [_ (y & -> & TH & ON & FX)]. pose proof (Forall_inv TH) as (k & GK & _). exists y, k. split; [reflexivity|]. split; [exact GK|]. apply vmem_none. exact (only_not bare_keys "intervals" y ON FX eq_refl).
Qed.
Lemma reps_hold rs l : (forall r, In r rs -> measured r) -> Forall2 (rep_read rows) rs l -> Forall2 holds rs l.
Proof.
  intros M F. induction F as [|r v rs l R F IH]; constructor; [|apply IH; intros r' I; apply M; now right]. apply rep_holds; [|exact R]. exact (proj1 (M r (or_introl eq_refl))).
Qed.
Lemma rep_asks more r v : rep_read more r v -> exists d id, v = VDict d /\ vget "report_request_id" d = Some id.
Proof. intros [_ (y & -> & TH & _ & _)]. pose proof (Forall_inv TH) as (k & GK & _). now exists y, k. Qed.
Lemma reps_ask more rs l : Forall2 (rep_read more) rs l -> forall v, In v l -> exists d id, v = VDict d /\ vget "report_request_id" d = Some id.
Proof. induction 1 as [|r v rs l R F IH]; intros w []; [subst w; exact (rep_asks more r v R) | now apply IH]. Qed.
End Updates.

(** ** What is done with it *)
Lemma reading_same v a b : reading v a -> reading v b -> a = b.
Proof.
  intros (i & p & -> & A1 & A2 & A3 & A4 & _) (i' & p' & E & B1 & B2 & B3 & B4 & _). injection E as <-. rewrite A2 in B2. injection B2 as <-. destruct a as [? [? ?]], b as [? [? ?]]. cbn [fst snd] in *. congruence.
Qed.
Lemma readings_same l rs rs' : Forall2 reading l rs -> Forall2 reading l rs' -> rs = rs'.
Proof. intros F. revert rs'. induction F as [|v a l rs A F IH]; intros rs' G; inversion G; subst; [reflexivity|]. f_equal; [now apply (reading_same v) | now apply IH]. Qed.
Lemma holds_complete rs l : Forall2 holds rs l -> Forall complete l.
Proof. induction 1 as [|r v rs l (d & id & t & li & rd & -> & A & _ & _ & B & C & _) F IH]; constructor; [now exists d, id, li, rd | exact IH]. Qed.
Lemma given_delivered s rs l actss : Forall2 holds rs l -> Forall2 (given s) l actss -> Forall2 (delivered_to (Handling.s_callbacks s)) rs actss.
Proof.
  intros F. revert actss. induction F as [|r v rs l (d & id & t & li & rd & -> & A & TX & U & B & C & T) F IH]; intros actss G; inversion G as [|? acts ? actss' GV G' E1 E2]; subst; constructor; [|now apply IH].
  destruct GV as (d' & id' & li' & rd' & E & A' & B' & C' & ND & X). injection E as <-. rewrite A in A'. injection A' as <-. rewrite B in B'. injection B' as <-. rewrite <- (readings_same _ _ _ C C') in X. exists id, rd, t. repeat (split; [assumption|]). exact X.
Qed.
Lemma loop_app s a b acts : Handling.report_loop s a = (acts, Ok tt) -> Handling.report_loop s (a ++ b) = let '(acts', o) := Handling.report_loop s b in ((acts ++ acts')%list, o).
Proof.
  revert acts. induction a as [|r a IH]; intros acts H; cbn [Handling.report_loop app] in H |- *; [injection H as <-; destruct (Handling.report_loop s b); reflexivity|].
  destruct (Handling.one_report s r) as [a1 [u|e]]; [|discriminate H]. destruct (Handling.report_loop s a) as [a2 o2]. injection H as <- ->. rewrite (IH a2 eq_refl). destruct (Handling.report_loop s b) as [a3 o3]. now rewrite app_assoc.
Qed.
Lemma loop_stops s d id b : Handling.s_callbacks s <> [] -> vget "report_request_id" d = Some id -> vget "intervals" d = None -> Handling.report_loop s (VDict d :: b) = ([], Raise KeyError).
Proof. intros C A B. cbn [Handling.report_loop]. unfold Handling.one_report. cbn [Handling.item]. rewrite A. destruct (Handling.s_callbacks s); [contradiction|]. rewrite B. reflexivity. Qed.
