(** What a VTN reads of the oadrCreatedEvent messages that the schema allows. *)
From Coq Require Import ZArith String Ascii List Bool Lia Arith.
From Verif.Base Require Import Result Dict PyStr ListExtra.
From Verif.Model Require Import Duration DateTime Text Normalize Xml XmlText Schema SchemaTypes.
From Verif.Model Require Import Polled Replied.
From Verif.Spec Require Import Timestamp TextSpec MessageSpec ReadableSpec PolledSpec RepliedSpec.
From Verif.Proofs Require Import DateTimeProofs TextProofs NormalizeProofs CalmProofs ReadableProofs MemberProofs EventMemberProofs PolledProofs.
From Verif.Proofs Require UnnamedProofs AnsweredProofs.
Import ListNotations.
Local Open Scope string_scope.

Section Replies.
Context (uri : string -> bool) (num : numbers).
Local Notation nz := (normalize num).
Local Notation valid' := (valid uri (fun _ => false)).
Local Notation carried := (carried num).
Local Notation steady := (steady num).
Local Notation becomes := (becomes num).
Local Notation interpret := (interpret num).
Local Notation value_of := (value_of num).

(** ** A text, once and twice read *)
Lemma interpret_again q u v w : duration_key q = false -> time_key q = false -> scalar_val u = true -> interpret q u = Ok v -> interpret q v = Ok w -> v = w.
Proof.
  intros D T SU I J. destruct u; try discriminate SU; try (rewrite interpret_done in I by (reflexivity || assumption); injection I as <-; rewrite interpret_done in J by (reflexivity || assumption); congruence).
  assert (C : v = VStr s \/ match v with VStr _ => false | _ => true end = true).
  { rewrite interpret_text in I by assumption. repeat match type of I with context [if ?c then _ else _] => destruct c end; try discriminate I; injection I as <-; auto. }
  destruct C as [->|C]; [congruence|]. rewrite interpret_done in J by assumption. congruence.
Qed.
Definition stands (q : string) (P : string -> Prop) (u : val) : Prop := scalar_val u = true /\ exists s, P s /\ (u = text_val s \/ interpret q (text_val s) = Ok u).
Definition done (q : string) (P : string -> Prop) (u : val) : Prop := exists s, P s /\ interpret q (text_val s) = Ok u.
Lemma stands_done q P u v : duration_key q = false -> time_key q = false -> stands q P u -> interpret q u = Ok v -> stands q P v /\ done q P v.
Proof.
  intros D T (SU & s & H & [->|K]) I.
  - split; [split; [exact (interpret_scalar num q _ v SU I)|]; exists s; auto | now exists s].
  - pose proof (interpret_again q (text_val s) u v D T (text_val_scalar s) K I) as <-. split; [split; [exact SU|]; exists s; auto | now exists s].
Qed.
Definition a_read (q : string) (P : string -> Prop) : field := mk_field q [q] (fun _ u => stands q P u) (done q P).
Lemma carried_read q P : general_key q = true -> leaf_key q = true -> duration_key q = false -> time_key q = false -> carried (a_read q P).
Proof.
  intros G L D T m k u new M E [S|[]] F (v & VV & MA). cbn [fst snd f_src f_out f_kind a_read] in *. rewrite E, <- S in *. rewrite value_scalar in VV by exact (proj1 F).
  destruct (stands_done q P u v D T F VV) as [A B]. rewrite made_leaf in MA; [|assumption|assumption|now destruct v, (proj1 A)]. injection MA as <-. split; [apply vmem_one|].
  intros q' w [[= <- <-]|[]] _. now split.
Qed.

(** ** One response *)
Definition raw (path : list string) (r : xml) (s : string) : Prop := exists c, part_of path r c /\ text_in c = s.
Definition id_of (r : xml) : string -> Prop := raw [in_ei "qualifiedEventID"; in_ei "eventID"] r.
Definition number_of (r : xml) : string -> Prop := raw [in_ei "qualifiedEventID"; in_ei "modificationNumber"] r.
Definition choice_of (r : xml) : string -> Prop := raw [in_ei "optType"] r.
Definition qual_keys : list string := ["event_id"; "modification_number"].
Definition qual_fields (r : xml) : list field := [a_read "event_id" (id_of r); a_read "modification_number" (number_of r)].
Lemma carried_qual r : Forall carried (qual_fields r).
Proof. constructor; [now apply carried_read|]. constructor; [now apply carried_read | constructor]. Qed.
Definition an_event (q : string) (P : string -> Prop) (r : xml) : field :=
  mk_field q ["qualified_event_id"; q] (fun k u => (k = "qualified_event_id" -> like qual_keys (qual_fields r) u) /\ (k = q -> stands q P u)) (done q P).
Lemma carried_event r q P : q = "event_id" /\ P = id_of r \/ q = "modification_number" /\ P = number_of r -> carried (an_event q P r).
Proof.
  intros Q m k u new M E S [F1 F2] (v & VV & MA). cbn [fst snd f_src f_out f_kind f_done an_event] in *. rewrite E in VV. destruct S as [S|[S|[]]]; rewrite <- S in *.
  - destruct (F1 eq_refl) as (x & -> & H). cbn [NormalizeProofs.value_of] in VV. destruct (nz m x) as [y|] eqn:N; [|discriminate VV]. injection VV as <-.
    destruct (like_kept num qual_keys (qual_fields r) m x y eq_refl (carried_qual r) eq_refl (ex_intro _ x (conj eq_refl H)) N) as (LK & TH & _ & _).
    pose proof (Forall_inv TH) as (i & GI & DI). pose proof (Forall_inv (Forall_inv_tail TH)) as (n & GN & DN). cbn [f_out f_done a_read] in GI, DI, GN, DN.
    unfold made, eventual, news in MA. cbn [andb String.eqb Ascii.eqb Bool.eqb] in MA. change (listing "qualified_event_id") with false in MA. change (describing "qualified_event_id") with false in MA.
    cbn in MA. rewrite GI, GN in MA. injection MA as <-.
    assert (SI : forall s w q', interpret q' (text_val s) = Ok w -> scalar_val w = true) by (intros s w q' I; exact (interpret_scalar num q' _ w (text_val_scalar s) I)).
    assert (ST : forall q' P' w, done q' P' w -> stands q' P' w) by (intros q' P' w (s & H1 & H2); split; [exact (SI _ _ _ H2) | exists s; auto]).
    destruct Q as [[-> ->]|[-> ->]]; (split; [reflexivity|]); intros q' w I J.
    + destruct I as [[= <- <-]|[[= <- <-]|[]]]; [|exfalso; destruct J as [J|[J|[]]]; discriminate J]. split; [split; [discriminate | intros _; now apply ST] | intros _; exact DI].
    + destruct I as [[= <- <-]|[[= <- <-]|[]]]; [exfalso; destruct J as [J|[J|[]]]; discriminate J|]. split; [split; [discriminate | intros _; now apply ST] | intros _; exact DN].
  - assert (KQ : general_key q = true /\ leaf_key q = true /\ duration_key q = false /\ time_key q = false /\ q <> "qualified_event_id") by (destruct Q as [[-> _]|[-> _]]; repeat split; discriminate).
    destruct KQ as (G & L & D & T & NQ). specialize (F2 eq_refl). rewrite value_scalar in VV by exact (proj1 F2).
    destruct (stands_done q P u v D T F2 VV) as [A B]. rewrite made_leaf in MA; [|assumption|assumption|now destruct v, (proj1 A)]. injection MA as <-. split; [apply vmem_one|].
    intros q' w [[= <- <-]|[]] _. split; [split; [intros X; contradiction | intros _; exact A] | intros _; exact B].
Qed.
Definition resp_keys : list string := ["response_code"; "response_description"; "request_id"; "qualified_event_id"; "event_id"; "modification_number"; "opt_type"].
Definition resp_fields (r : xml) : list field := [an_event "event_id" (id_of r) r; an_event "modification_number" (number_of r) r; a_read "opt_type" (choice_of r)].
Definition resp (r : xml) (v : val) : Prop := like resp_keys (resp_fields r) v.
Definition resp_read (r : xml) : val -> Prop := settled resp_keys (resp_fields r).
Lemma carried_resp r : Forall carried (resp_fields r).
Proof. constructor; [apply carried_event; now left|]. constructor; [apply carried_event; now right|]. constructor; [now apply carried_read | constructor]. Qed.
Lemma steady_resp r : steady (resp r).
Proof. apply steady_like; [vm_compute; reflexivity | apply carried_resp | vm_compute; reflexivity]. Qed.
Lemma becomes_resp r : becomes (resp r) (resp_read r).
Proof. apply becomes_settled; [vm_compute; reflexivity | apply carried_resp | vm_compute; reflexivity]. Qed.
Lemma resp_compact r m x y : resp r (VDict x) -> nz m x = Ok y -> compact y = true /\ fixed y.
Proof.
  apply (like_compact num resp_keys (resp_fields r) m x y (an_event "event_id" (id_of r) r) (a_read "opt_type" (choice_of r))); [vm_compute; reflexivity | apply carried_resp | vm_compute; reflexivity | now left | right; right; now left | discriminate | reflexivity].
Qed.

(** ** Several responses *)
Lemma items_replied rs m q u v : Forall2 resp rs (items_of u) -> rs <> [] -> (exists l, u = VList l) \/ (exists x, u = VDict x) -> value_of m q u = Ok v ->
  Forall2 resp_read rs (items_of v) /\ ((exists l, u = VList l) -> exists l, v = VList l) /\ ((exists x, u = VDict x) -> exists y, v = VDict y /\ compact y = true).
Proof.
  intros F NE [[l ->]|[x ->]] VV; cbn [items_of] in F.
  - cbn [NormalizeProofs.value_of] in VV. destruct (mapM _ l) as [l'|] eqn:ML; [|discriminate VV]. injection VV as <-. split; [|split; [eauto | intros [x X]; discriminate X]]. cbn [items_of].
    clear NE. revert l' ML. induction F as [|r w rs l H F IH]; intros l' ML; cbn [mapM] in ML; [injection ML as <-; constructor|]. destruct (proj1 (steady_resp r) w H) as [x ->].
    destruct (nz m x) as [y|] eqn:N1; [|discriminate ML]. cbn [bind] in ML. destruct (nz m y) as [z|] eqn:N2; [|discriminate ML]. cbn [bind] in ML. destruct (mapM _ l) as [l2|]; [|discriminate ML]. cbn [bind] in ML. injection ML as <-.
    constructor; [|now apply IH]. exact (becomes_resp r m y z (proj2 (steady_resp r) m x y H N1) N2).
  - cbn [NormalizeProofs.value_of] in VV. destruct (nz m x) as [y|] eqn:N; [|discriminate VV]. injection VV as <-. inversion F as [|r w rs' l H F' E1 E2]; subst. inversion F'; subst. cbn [items_of].
    split; [constructor; [exact (becomes_resp r m x y H N) | constructor]|]. split; [intros [l X]; discriminate X|]. intros _. exists y. split; [reflexivity | exact (proj1 (resp_compact r m x y H N))].
Qed.
Lemma reads_are rs l : Forall2 resp_read rs l -> Forall2 resp rs l.
Proof. induction 1 as [|r w rs l [H _] F IH]; constructor; assumption. Qed.
Definition an_answer (rs : list xml) : field :=
  mk_field "event_response" ["event_response"] (fun _ u => Forall2 resp rs (items_of u) /\ ((exists l, u = VList l) \/ exists x, u = VDict x)) (fun u => Forall2 resp_read rs (items_of u)).
Lemma carried_answer rs : rs <> [] -> carried (an_answer rs).
Proof.
  intros NE m k u new M E [S|[]] [F KU] (v & VV & MA). cbn [fst snd f_src f_out f_kind f_done an_answer] in *. rewrite E, <- S in *.
  destruct (items_replied rs m "event_response" u v F NE KU VV) as (A & B & C).
  assert (X : new = [("event_response", v)] /\ ((exists l, v = VList l) \/ exists x, v = VDict x)).
  { destruct KU as [KU|KU].
    - destruct (B KU) as [l ->]. rewrite made_leaf in MA by reflexivity. injection MA as <-. split; [reflexivity | left; eauto].
    - destruct (C KU) as (y & -> & CY). rewrite made_compact in MA by (reflexivity || exact CY). injection MA as <-. split; [reflexivity | right; eauto]. }
  destruct X as [-> KV]. split; [apply vmem_one|]. intros q w [[= <- <-]|[]] _. split; [split; [now apply reads_are | exact KV] | now intros _].
Qed.
Definition holder (rs : list xml) (u : val) : Prop := like ["event_response"] [an_answer rs] u.
Definition replies (rs : list xml) : field :=
  mk_field "event_responses" ["event_responses"] (fun _ u => holder rs u \/ exists l, u = VList l /\ Forall2 resp rs l) (fun u => exists l, u = VList l /\ Forall2 resp_read rs l).
Lemma carried_replies rs : rs <> [] -> carried (replies rs).
Proof.
  intros NE m k u new M E [S|[]] F (v & VV & MA). cbn [fst snd f_src f_out f_kind f_done replies] in *. rewrite E, <- S in *.
  assert (X : exists l, new = [("event_responses", VList l)] /\ Forall2 resp_read rs l).
  { destruct F as [(x & -> & H)|(l & -> & F)].
    - cbn [NormalizeProofs.value_of] in VV. destruct (nz m x) as [y|] eqn:N; [|discriminate VV]. injection VV as <-.
      assert (CA : Forall carried [an_answer rs]) by (constructor; [now apply carried_answer | constructor]).
      destruct (like_kept num ["event_response"] [an_answer rs] m x y eq_refl CA eq_refl (ex_intro _ x (conj eq_refl H)) N) as (LK & TH & ON & FX).
      pose proof (Forall_inv TH) as (w & GW & DW). cbn [f_out f_done an_answer] in GW, DW.
      pose proof (few ["event_response"] y (nodup_nz num m x y (closed_lacks ["event_response"] x eq_refl (proj1 H)) N) ON FX) as LE. cbn [length] in LE.
      destruct y as [|[k' w'] [|]]; [discriminate GW | | cbn [length] in LE; lia].
      assert (KE : k' = "event_response" /\ w' = w). { apply vget_in in GW. destruct GW as [[= -> ->]|[]]. now split. } destruct KE as [-> ->].
      rewrite made_general in MA by reflexivity. unfold unnest in MA.
      change (vmem "duration" [("event_response", w)]) with false in MA. change (vmem "event_responses" [("event_response", w)]) with false in MA. change (butlast "event_responses") with "event_response" in MA.
      change (vmem "event_response" [("event_response", w)]) with true in MA. cbn [andb length Nat.eqb] in MA. cbv iota zeta in MA. change (vget "event_response" [("event_response", w)]) with (Some w) in MA. cbn [bind] in MA.
      exists (items_of w). split; [|exact DW]. destruct w; injection MA as <-; reflexivity.
    - destruct (items_replied rs m "event_responses" (VList l) v F NE (or_introl (ex_intro _ l eq_refl)) VV) as (A & B & _). destruct (B (ex_intro _ l eq_refl)) as [l' ->].
      rewrite made_leaf in MA by reflexivity. injection MA as <-. exists l'. split; [reflexivity | exact A]. }
  destruct X as (l & -> & FL). split; [apply vmem_one|]. intros q w [[= <- <-]|[]] _. split; [right; exists l; split; [reflexivity | now apply reads_are] | intros _; now exists l].
Qed.
Definition no_replies : field := mk_field "event_responses" ["event_responses"] (fun _ u => u = VNone) (fun u => u = VNone).
Lemma carried_none : carried no_replies.
Proof.
  intros m k u new M E [S|[]] F (v & VV & MA). cbn [fst snd f_src f_out f_kind f_done no_replies] in *. rewrite E, <- S in *. subst u. cbn [NormalizeProofs.value_of] in VV. rewrite interpret_done in VV by reflexivity. injection VV as <-.
  rewrite made_leaf in MA by reflexivity. injection MA as <-. split; [apply vmem_one|]. intros q w [[= <- <-]|[]] _. now split.
Qed.

(** ** From elements to dicts *)
Lemma in_named n x c : In c (parts x) -> xml_name c = n -> In c (named n x).
Proof. intros I E. apply filter_In. split; [exact I | now apply String.eqb_eq]. Qed.
Lemma part_one n r c : In c (named n r) -> part_of [n] r c.
Proof. intros I. unfold part_of. cbn [fold_left flat_map]. now rewrite app_nil_r. Qed.
Lemma part_two n n' r c c' : In c (named n r) -> In c' (named n' c) -> part_of [n; n'] r c'.
Proof. intros I J. unfold part_of. cbn [fold_left flat_map]. rewrite app_nil_r. apply in_flat_map. now exists c. Qed.
Lemma text_stands q (P : string -> Prop) c T : scalar_ty T = true -> valid' c T = true -> P (text_in c) -> stands q P (V c).
Proof. intros ST VC H. destruct (scalar_value uri c T ST VC) as (n & s & -> & E). rewrite E. split; [apply text_val_scalar|]. exists s. split; [exact H | now left]. Qed.
Lemma qual_of r c : In c (named (in_ei "qualifiedEventID") r) -> valid' c ei_QualifiedEventIDType = true -> like qual_keys (qual_fields r) (V c).
Proof.
  destruct c as [n a t cs]. intros I H. unfold ei_QualifiedEventIDType in H. eapply like_of; [| |exact H| |]; [reflexivity | reflexivity | reflexivity|]. intros d S. constructor; [|constructor; [|constructor]].
  - eapply (has_one uri _ cs d (a_read "event_id" (id_of r)) (in_ei "eventID") (Simple [] Text) S); try reflexivity. intros c J NM VC. apply (text_stands _ _ c (Simple [] Text) eq_refl VC).
    exists c. split; [|reflexivity]. apply (part_two _ _ r (Elem n a t cs) c I). now apply in_named.
  - eapply (has_one uri _ cs d (a_read "modification_number" (number_of r)) (in_ei "modificationNumber") (Simple [] UnsignedInt) S); try reflexivity. intros c J NM VC. apply (text_stands _ _ c (Simple [] UnsignedInt) eq_refl VC).
    exists c. split; [|reflexivity]. apply (part_two _ _ r (Elem n a t cs) c I). now apply in_named.
Qed.
Lemma resp_of r : valid' r ei_eventResponses_element_eventResponse = true -> resp r (V r).
Proof.
  intros H. assert (Q : forall c, In c (parts r) -> xml_name c = in_ei "qualifiedEventID" -> valid' c ei_QualifiedEventIDType = true -> like qual_keys (qual_fields r) (V c)) by (intros c I NM VC; apply qual_of; [now apply in_named | exact VC]).
  assert (O : forall c, In c (parts r) -> xml_name c = in_ei "optType" -> choice_of r (text_in c)) by (intros c I NM; exists c; split; [apply part_one; now apply in_named | reflexivity]).
  unfold resp. destruct r as [n a t cs]. cbn [parts] in Q, O. unfold ei_eventResponses_element_eventResponse in H.
  eapply like_of; [| |exact H| |]; [reflexivity | reflexivity | vm_compute; reflexivity|]. intros d S. constructor; [|constructor; [|constructor; [|constructor]]].
  - eapply (has_one uri _ cs d (an_event "event_id" _ _) (in_ei "qualifiedEventID") ei_QualifiedEventIDType S); try reflexivity. intros c J NM VC. split; [intros _; now apply Q | discriminate].
  - eapply (has_one uri _ cs d (an_event "modification_number" _ _) (in_ei "qualifiedEventID") ei_QualifiedEventIDType S); try reflexivity. intros c J NM VC. split; [intros _; now apply Q | discriminate].
  - eapply (has_one uri _ cs d (a_read "opt_type" _) (in_ei "optType") (Simple [] ei_OptTypeType) S); try reflexivity. intros c J NM VC. apply (text_stands _ _ c (Simple [] ei_OptTypeType) eq_refl VC). now apply O.
Qed.
Lemma holder_of c : valid' c ei_eventResponses_element = true -> parts c = named (in_ei "eventResponse") c
  /\ (forall r, In r (parts c) -> valid' r ei_eventResponses_element_eventResponse = true) /\ (parts c = [] -> V c = VNone) /\ (parts c <> [] -> holder (parts c) (V c)).
Proof.
  destruct c as [n a t cs]. cbn [parts]. intros H. unfold ei_eventResponses_element in H.
  assert (A : forall ps, ps = [many (in_ei "eventResponse") ei_eventResponses_element_eventResponse] -> forall d, shaped uri ps cs d -> forall c, In c cs -> xml_name c = in_ei "eventResponse" /\ valid' c ei_eventResponses_element_eventResponse = true).
  { intros ps -> d S c I. destruct (sh_type uri _ _ _ S c I) as (ct & At & Vt). cbn in At. destruct At as [At|[]]. injection At as <- <-. now split. }
  destruct (shaped_of uri [] [many (in_ei "eventResponse") ei_eventResponses_element_eventResponse] n a t cs eq_refl H) as [(-> & -> & E)|(d & E & S)].
  - split; [reflexivity|]. split; [intros r []|]. split; [intros _; exact E | intros X; contradiction X; reflexivity].
  - specialize (A _ eq_refl d S). assert (AN : cs = filter (fun c => xml_name c =? in_ei "eventResponse") cs).
    { clear - A. induction cs as [|c cs IH]; [reflexivity|]. cbn [filter]. destruct (A c (or_introl eq_refl)) as [N _]. rewrite N, String.eqb_refl. f_equal. apply IH. intros c' I. apply A. now right. }
    split; [exact AN|]. split; [intros r I; now apply A|]. split.
    { intros ->. exfalso. cbn [valid] in H. clear - E H. destruct a as [|p a].
      - unfold V in E. cbn in E. pose proof (text_val_scalar t) as X. rewrite E in X. discriminate X.
      - destruct (existsb instance_attribute (p :: a)); [discriminate H|]. rewrite !andb_true_iff in H. destruct H as [[H _] _]. apply attributes_none in H. discriminate H. }
    intros NE. rewrite E. exists d. split; [reflexivity|]. split; [apply (shaped_only uri _ cs d ["event_response"] S); reflexivity|]. constructor; [|constructor].
    destruct cs as [|c0 cs0] eqn:EC; [contradiction|]. rewrite <- EC in *. assert (I0 : In c0 cs) by (rewrite EC; now left). pose proof (held_by uri _ cs d c0 S eq_refl I0) as HE. rewrite (proj1 (A c0 I0)) in HE. split.
    { destruct HE as (k & v & J & M & K). exists k, v. split; [exact J|]. split; [exact M|]. left. now rewrite K. }
    intros k u J M [K|[]]. destruct (en_from _ _ (sh_entries _ _ _ _ S) k u J) as [?|(_ & l & NL & EL & ->)]; [congruence|].
    assert (KE : k = "eventResponse"). { destruct l as [|c l]; [now contradiction NL|]. assert (B : In c (filter (fun c => plain_name (xml_name c) =? k) cs)) by (rewrite <- EL; now left). apply filter_In in B as [B1 B2]. apply String.eqb_eq in B2. rewrite (proj1 (A c B1)) in B2. now rewrite <- B2. }
    subst k. split; [reflexivity|]. assert (LC : l = cs).
    { rewrite EL. clear - A. induction cs as [|c cs IH]; [reflexivity|]. cbn [filter]. rewrite (proj1 (A c (or_introl eq_refl))). change (plain_name (in_ei "eventResponse") =? "eventResponse") with true. cbv iota. f_equal. apply IH. intros c' I. apply A. now right. }
    subst l. rewrite LC. assert (RS : forall c, In c cs -> resp c (V c)) by (intros c I; apply resp_of; now apply A). assert (FR : Forall2 resp cs (map V cs)).
    { clear - RS. induction cs as [|c cs IH]; constructor; [apply RS; now left | apply IH; intros c' I; apply RS; now right]. }
    cbn [f_kind an_answer]. rewrite EC in *. destruct cs0 as [|c1 cs1].
    + cbn [map one_or_list]. destruct (proj1 (steady_resp c0) _ (RS c0 (or_introl eq_refl))) as [x EX]. split; [|right; eauto]. rewrite EX. cbn [items_of]. rewrite <- EX. exact FR.
    + cbn [map one_or_list]. split; [exact FR | left; eauto].
Qed.
Lemma at_most_one ps cs d nm : shaped uri ps cs d -> once (plain_name nm) ps = true -> (length (filter (fun c => String.eqb (xml_name c) nm) cs) <= 1)%nat.
Proof.
  intros S O. unfold once in O. destruct (occurs (plain_name nm) ps) as [m|] eqn:OC; [|discriminate O]. apply Nat.leb_le in O.
  pose proof (child_count (plain_name nm) ps _ m (sh_children _ _ _ _ S) OC) as X. eapply Nat.le_trans; [|eapply Nat.le_trans; [exact X | exact O]].
  clear. induction cs as [|c cs IH]; [cbn; lia|]. cbn [map filter fst]. destruct (xml_name c =? nm) eqn:E.
  - apply String.eqb_eq in E. rewrite E, String.eqb_refl. cbn [length]. lia.
  - destruct (plain_name (xml_name c) =? plain_name nm); cbn [length]; lia.
Qed.
Definition told_keys : list string := ["response"; "event_responses"; "ven_id"].
Definition untold_keys : list string := ["response"; "ven_id"].
Definition a_ven_id : field := a_scalar "ven_id" anything.
Definition answers_of (c : xml) : list xml := flat_map (named (in_ei "eventResponse")) (named (in_ei "eventResponses") c).
Lemma inner_of c : valid' c pyld_eiCreatedEvent_element = true ->
  (named (in_ei "eventResponses") c = [] /\ like untold_keys [a_ven_id] (V c))
  \/ (named (in_ei "eventResponses") c <> [] /\ answers_of c = [] /\ like told_keys [a_ven_id; no_replies] (V c))
  \/ (answers_of c <> [] /\ (forall r, In r (answers_of c) -> valid' r ei_eventResponses_element_eventResponse = true) /\ like told_keys [a_ven_id; replies (answers_of c)] (V c)).
Proof.
  destruct c as [n a t cs]. intros H. unfold pyld_eiCreatedEvent_element in H. pose proof (fun U R => shaped_required uri _ _ n a t cs U R H) as X. destruct (X eq_refl eq_refl) as (d & E & S). clear X. rewrite E.
  assert (F : has d a_ven_id) by (eapply (has_scalar uri _ cs d "ven_id" anything (in_ei "venID") (Simple [] Text) S); try reflexivity; intros c _ _ _; exact I).
  pose proof (at_most_one _ cs d (in_ei "eventResponses") S eq_refl) as ONE. unfold answers_of.
  destruct (named_or_not (in_ei "eventResponses") cs) as [(c0 & I0 & N0)|NO].
  - right. assert (J0 : In c0 (filter (fun c => xml_name c =? in_ei "eventResponses") cs)) by (apply filter_In; split; [exact I0 | now apply String.eqb_eq]).
    assert (FL : filter (fun c => xml_name c =? in_ei "eventResponses") cs = [c0]) by (destruct (filter _ cs) as [|c1 [|]]; [destruct J0 | destruct J0 as [->|[]]; reflexivity | cbn [length] in ONE; lia]).
    assert (FN : named (in_ei "eventResponses") (Elem n a t cs) = [c0]) by exact FL. rewrite FN. cbn [flat_map]. rewrite app_nil_r.
    assert (V0 : valid' c0 ei_eventResponses_element = true).
    { destruct (sh_type uri _ _ _ S c0 I0) as (ct & At & Vt). rewrite N0 in At. cbn in At. destruct At as [At|[At|[At|[]]]]; try discriminate At. injection At as <-. exact Vt. }
    destruct (holder_of c0 V0) as (PN & PV & PE & PH). rewrite <- PN. pose proof (held_by uri _ cs d c0 S eq_refl I0) as HE. rewrite N0 in HE.
    assert (ON : only told_keys d) by (apply (shaped_only uri _ cs d told_keys S); reflexivity).
    assert (L1 : forall l : list xml, l <> [] -> (forall c, In c l -> In c cs /\ xml_name c = in_ei "eventResponses" /\ valid' c ei_eventResponses_element = true) -> (exists c, l = [c]) -> l = [c0]).
    { intros l NE A [c ->]. destruct (A c (or_introl eq_refl)) as (A1 & A2 & _). assert (K : In c (filter (fun c => xml_name c =? in_ei "eventResponses") cs)) by (apply filter_In; split; [exact A1 | now apply String.eqb_eq]). rewrite FL in K. destruct K as [->|[]]. reflexivity. }
    destruct (parts c0) as [|r0 rs0] eqn:EP.
    + left. split; [discriminate|]. split; [reflexivity|]. exists d. split; [reflexivity|]. split; [exact ON|]. constructor; [exact F|]. constructor; [|constructor].
      apply (held_has uri _ cs d no_replies (in_ei "eventResponses") ei_eventResponses_element S HE); [reflexivity | reflexivity|]. intros l NE A B. rewrite (L1 l NE A (B eq_refl)). cbn [map one_or_list f_kind no_replies]. now apply PE.
    + right. split; [discriminate|]. split; [exact PV|]. exists d. split; [reflexivity|]. split; [exact ON|]. constructor; [exact F|]. constructor; [|constructor].
      apply (held_has uri _ cs d (replies (r0 :: rs0)) (in_ei "eventResponses") ei_eventResponses_element S HE); [reflexivity | reflexivity|]. intros l NE A B. rewrite (L1 l NE A (B eq_refl)). cbn [map one_or_list f_kind replies]. left. now apply PH.
  - left. split.
    { unfold named. cbn [parts]. clear - NO. induction cs as [|c cs IH]; [reflexivity|]. cbn [filter]. destruct (xml_name c =? in_ei "eventResponses") eqn:E; [apply String.eqb_eq in E; now contradiction (NO c (or_introl eq_refl))|]. apply IH. intros c' I. apply NO. now right. }
    exists d. split; [reflexivity|]. split; [|constructor; [exact F | constructor]]. apply (only_without uri _ cs d untold_keys (in_ei "eventResponses") S); [reflexivity | exact NO].
Qed.

(** ** The message *)
Lemma skip_marks (rec : vdict -> result vdict) d0 l e : (forall kv, In kv d0 -> marked (fst kv) = true) -> foldM (entry num rec) (d0 ++ l) e = foldM (entry num rec) l e.
Proof.
  induction d0 as [|[k v] d0 IH]; intros H; [reflexivity|]. cbn [app foldM]. pose proof (H (k, v) (or_introl eq_refl)) as M. cbn [fst] in M. unfold entry at 1. unfold marked in M. rewrite M. cbn [bind]. apply IH. intros kv I. apply H. now right.
Qed.
Lemma created_payload m d depth p : valid' m oadr_oadrCreatedEventType = true -> V m = VDict d -> nz depth d = Ok p ->
  exists c x k, named (in_pyld "eiCreatedEvent") m = [c] /\ valid' c pyld_eiCreatedEvent_element = true /\ V c = VDict x /\ nz k x = Ok p.
Proof.
  destruct m as [n a t cs]. intros H E N. unfold oadr_oadrCreatedEventType in H. cbn [valid] in H. destruct (existsb instance_attribute a); [discriminate H|]. rewrite !andb_true_iff in H. destruct H as [[_ B] C].
  apply child_sole in C as (f & EC & F). destruct cs as [|c [|]]; try discriminate EC. cbn [map] in EC. injection EC as E1 E2. subst f.
  assert (VC : valid' c pyld_eiCreatedEvent_element = true) by exact F.
  assert (DE : d = (at_attrs a ++ [("eiCreatedEvent", V c)])%list).
  { destruct (entries_of n a t [c] B) as (d' & E' & _ & e & -> & ND & G); [right; discriminate | intros c' [<-|[]]; rewrite E1; reflexivity|]. rewrite E in E'. injection E' as ->. f_equal.
    assert (K : forall k v, In (k, v) e -> k = "eiCreatedEvent" /\ v = V c).
    { intros k v I. pose proof (in_get_nodup String.eqb String.eqb_eq k v e ND I) as GV. change (get String.eqb k e) with (vget k e) in GV. rewrite G in GV. cbn [map called filter] in GV. rewrite plain_name_of, E1 in GV. change (plain_name (in_pyld "eiCreatedEvent")) with "eiCreatedEvent" in GV.
      destruct ("eiCreatedEvent" =? k) eqn:EK; [|discriminate GV]. apply String.eqb_eq in EK. cbn in GV. injection GV as <-. now split. }
    destruct e as [|[k1 v1] [|[k2 v2] e]].
    - exfalso. specialize (G "eiCreatedEvent"). cbn [map called filter] in G. rewrite plain_name_of, E1 in G. discriminate G.
    - destruct (K k1 v1 (or_introl eq_refl)) as [-> ->]. reflexivity.
    - exfalso. destruct (K k1 v1 (or_introl eq_refl)) as [-> _]. destruct (K k2 v2 (or_intror (or_introl eq_refl))) as [-> _]. inversion ND as [|? ? NI]; subst. apply NI. now left. }
  destruct c as [cn ca ct cc]. pose proof VC as VC'. unfold pyld_eiCreatedEvent_element in VC'. pose proof (fun U R => shaped_required uri _ _ cn ca ct cc U R VC') as X. destruct (X eq_refl eq_refl) as (x & EX & _). clear X VC'.
  destruct depth as [|depth]; [discriminate N|]. exists (Elem cn ca ct cc), x, depth. split; [|split; [exact VC | split; [exact EX|]]].
  - unfold named. cbn [parts filter]. rewrite E1. reflexivity.
  - rewrite DE in N. cbn [normalize] in N. rewrite skip_marks in N. 2:{ intros kv I. apply in_map_iff in I as (b & <- & _). apply marked_at. }
    rewrite EX in N. cbn [foldM] in N. unfold entry in N. change (startswith "@" "eiCreatedEvent") with false in N. cbv iota zeta in N. destruct (nz depth x) as [y|]; [|discriminate N]. cbn [bind] in N.
    change (normalize_key "eiCreatedEvent") with "created_event" in N. change (strip_prefix "x_ei_" "created_event") with (@None string) in N. cbn in N. exact N.
Qed.

(** ** What is read *)
Lemma str_of_Z_not_wordy z : ~ wordy (str_of_Z z).
Proof. intros (_ & _ & _ & W). apply W. apply integer_number. apply str_of_Z_like. Qed.
Lemma done_understood q P u : duration_key q = false -> time_key q = false -> done q P u -> exists s, P s /\ understood (flatten_xml s) u.
Proof.
  intros D T (s & H & I). exists s. split; [exact H|]. unfold text_val in I. destruct (flatten_xml s) as [|ch r] eqn:F.
  - rewrite interpret_done in I by (reflexivity || assumption). injection I as <-. split; [intros [X _]; contradiction|]. split; [discriminate|]. intros z E. exfalso. pose proof (str_of_Z_one_line z) as [O _]. congruence.
  - set (t := String ch r) in *. split; [|split].
    + intros (W1 & W2 & W3 & W4). rewrite (interpret_plain num q t D T W2 W3 W4) in I. congruence.
    + intros NW s' ->. assert (E : s' = t). { rewrite interpret_text in I by assumption. repeat match type of I with context [if ?c then _ else _] => destruct c end; try discriminate I. congruence. }
      subst s'. apply (interpret_plain_iff num q t D T) in I as (A & B & C). apply NW. repeat split; try assumption. discriminate.
    + intros z E. rewrite E in I. rewrite (interpret_int num q z D T) in I. congruence.
Qed.
Lemma opt_text t : Schema.fits uri ei_OptTypeType t = true -> flatten_xml t = "optIn" \/ flatten_xml t = "optOut".
Proof.
  unfold ei_OptTypeType. cbn [Schema.fits andb existsb]. change (Schema.value_of Token t) with (collapse t). intros H.
  assert (M : matches (Or (letters "optIn") (letters "optOut")) (collapse t) = true).
  { apply orb_true_iff in H as [H|H]; [|rewrite orb_false_r in H]; apply String.eqb_eq in H; rewrite H; vm_compute; reflexivity. }
  rewrite (collapse_flatten (Or (letters "optIn") (letters "optOut")) t) by (vm_compute; reflexivity || exact M).
  apply orb_true_iff in H as [H|H]; [|rewrite orb_false_r in H]; apply String.eqb_eq in H; auto.
Qed.
Lemma choice_valid r c : valid' r ei_eventResponses_element_eventResponse = true -> In c (named (in_ei "optType") r) -> flatten_xml (text_in c) = "optIn" \/ flatten_xml (text_in c) = "optOut".
Proof.
  destruct r as [n a t cs]. intros H I. unfold named in I. cbn [parts] in I. apply filter_In in I as [I N]. apply String.eqb_eq in N. unfold ei_eventResponses_element_eventResponse in H.
  pose proof (fun U R => shaped_required uri _ _ n a t cs U R H) as X. destruct (X eq_refl eq_refl) as (d & _ & S). clear X.
  destruct (sh_type uri _ _ _ S c I) as (ct & At & Vt). rewrite N in At. cbn in At. repeat (destruct At as [At|At]; [try discriminate At|]); [|destruct At]. injection At as <-.
  destruct c as [cn ca s cc]. cbn [text_in]. cbn [valid] in Vt. destruct (existsb instance_attribute ca); [discriminate Vt|]. apply andb_true_iff in Vt as [_ Vt]. destruct cc; [|discriminate Vt]. now apply opt_text.
Qed.
(** What a response that was read holds *)
Definition told (r : xml) (v : val) : Prop :=
  exists y i n o ti tn to, v = VDict y /\ vget "event_id" y = Some i /\ vget "modification_number" y = Some n /\ vget "opt_type" y = Some (VStr o)
    /\ event_text r ti /\ understood ti i /\ modification_text r tn /\ understood tn n /\ choice_text r to /\ to = o /\ (o = "optIn" \/ o = "optOut").
Lemma read_told r v : valid' r ei_eventResponses_element_eventResponse = true -> resp_read r v -> told r v.
Proof.
  intros VR [_ (y & -> & TH & _ & _)]. pose proof (Forall_inv TH) as (i & GI & DI). pose proof (Forall_inv (Forall_inv_tail TH)) as (n & GN & DN). pose proof (Forall_inv (Forall_inv_tail (Forall_inv_tail TH))) as (o & GO & DO).
  cbn [f_out f_done a_read an_event] in *. destruct (done_understood "event_id" _ i eq_refl eq_refl DI) as (si & (ci & P1 & <-) & U1). destruct (done_understood "modification_number" _ n eq_refl eq_refl DN) as (sn & (cn & P2 & <-) & U2).
  destruct (done_understood "opt_type" _ o eq_refl eq_refl DO) as (so & (co & P3 & <-) & U3).
  assert (IN : In co (named (in_ei "optType") r)) by (unfold part_of in P3; cbn [fold_left flat_map] in P3; now rewrite app_nil_r in P3).
  pose proof (choice_valid r co VR IN) as CH. assert (W : wordy (flatten_xml (text_in co))).
  { assert (K : looks_float (flatten_xml (text_in co)) = false) by (destruct CH as [-> | ->]; reflexivity). repeat split; try (destruct CH as [-> | ->]; discriminate). intros L. apply looks_float_spec in L. congruence. }
  pose proof (proj1 U3 W) as ->. exists y, i, n, (flatten_xml (text_in co)), (flatten_xml (text_in ci)), (flatten_xml (text_in cn)), (flatten_xml (text_in co)).
  repeat (split; [first [reflexivity | assumption | (eexists; split; [eassumption | apply flatten_flattening])]|]). exact CH.
Qed.
Lemma Forall2_told rs l : (forall r, In r rs -> valid' r ei_eventResponses_element_eventResponse = true) -> Forall2 resp_read rs l -> Forall2 told rs l.
Proof. intros H F. induction F as [|r v rs l R F IH]; constructor; [apply read_told; [apply H; now left | exact R] | apply IH; intros r' I; apply H; now right]. Qed.

Section Parsed.
Context (s : string) (x object : xml) (depth : nat) (p : vdict).
Context (RD : read_expanded s = Some x) (EN : envelope x object) (AL : alone uri object) (PA : parse_message num depth s = Ok ("oadrCreatedEvent", p)).
Lemma created_read : exists m, parts object = [m] /\ (exists ven, vget "ven_id" p = Some ven) /\
  ((responses_in m = [] /\ (vget "event_responses" p = None \/ vget "event_responses" p = Some VNone))
   \/ (responses_in m <> [] /\ exists l, vget "event_responses" p = Some (VList l) /\ Forall2 told (responses_in m) l)).
Proof.
  destruct (UnnamedProofs.parse_object num uri s x object depth _ p RD EN AL PA) as (on & oa & ot & m & ty & d & -> & IM & VM & EK & EV & NZ). exists m. split; [reflexivity|].
  destruct (AnsweredProofs.message_type "oadrCreatedEvent" (in_oadr "oadrCreatedEvent") oadr_oadrCreatedEventType m ty ltac:(vm_compute; reflexivity) IM (eq_sym EK)) as [_ ->]. clear IM EK.
  destruct (created_payload m d depth p VM EV NZ) as (c & y & k & NC & VC & EC & NK).
  assert (RE : responses_in m = answers_of c) by (unfold responses_in, answers_of; rewrite NC; cbn [flat_map]; now rewrite app_nil_r). rewrite RE.
  assert (CV : carried a_ven_id) by now apply carried_scalar.
  destruct (inner_of c VC) as [[NN L]|[(NN & NA & L)|(NA & VA & L)]]; rewrite EC in L.
  - assert (CA : Forall carried [a_ven_id]) by (constructor; [exact CV | constructor]).
    destruct (like_kept num untold_keys [a_ven_id] k y p eq_refl CA eq_refl L NK) as (_ & TH & ON & FX). pose proof (Forall_inv TH) as (v & GV & _). split; [now exists v|]. left.
    split; [unfold answers_of; now rewrite NN | left]. apply vmem_none. exact (only_not untold_keys "event_responses" p ON FX eq_refl).
  - assert (CA : Forall carried [a_ven_id; no_replies]) by (constructor; [exact CV | constructor; [apply carried_none | constructor]]).
    destruct (like_kept num told_keys [a_ven_id; no_replies] k y p eq_refl CA eq_refl L NK) as (_ & TH & _ & _). pose proof (Forall_inv TH) as (v & GV & _). split; [now exists v|]. left. split; [exact NA | right].
    pose proof (Forall_inv (Forall_inv_tail TH)) as (w & GW & ->). exact GW.
  - assert (CA : Forall carried [a_ven_id; replies (answers_of c)]) by (constructor; [exact CV | constructor; [now apply carried_replies | constructor]]).
    destruct (like_kept num told_keys [a_ven_id; replies (answers_of c)] k y p eq_refl CA eq_refl L NK) as (_ & TH & _ & _). pose proof (Forall_inv TH) as (v & GV & _). split; [now exists v|]. right. split; [exact NA|].
    pose proof (Forall_inv (Forall_inv_tail TH)) as (w & GW & l & -> & FL). exists l. split; [exact GW | now apply Forall2_told].
Qed.
End Parsed.
End Replies.

(** ** What is done with it *)
Lemma handed on ven rs l : Forall2 told rs l -> (forall c, on c = Ok tt) ->
  exists calls, hand_over on ven l = (calls, Ok tt)
    /\ Forall2 (fun r c => c_ven c = ven /\ (exists t, event_text r t /\ understood t (c_event c)) /\ exists t, choice_text r t /\ (t = "optIn" \/ t = "optOut") /\ c_opt c = VStr t) rs calls.
Proof.
  intros F ON. induction F as [|r v rs l (y & i & n & o & ti & tn & to & -> & GI & GN & GO & E1 & U1 & E2 & U2 & E3 & -> & CH) F (calls & H & K)]; [exists []; split; [reflexivity | constructor]|].
  exists (mk_call ven i (VStr o) :: calls). split.
  - cbn [hand_over item]. rewrite GI, GO. cbn [bind]. rewrite ON, H. reflexivity.
  - constructor; [|exact K]. cbn [c_ven c_event c_opt]. split; [reflexivity|]. split; [exists ti; now split | exists o; now repeat split].
Qed.
Lemma dec_wordy t : wordy t \/ ~ wordy t.
Proof.
  unfold wordy. destruct (string_dec t ""); [tauto|]. destruct (string_dec t "true"); [tauto|]. destruct (string_dec t "false"); [tauto|]. destruct (looks_float t) eqn:L.
  - apply looks_float_spec in L. tauto.
  - left. repeat (split; [assumption|]). intros X. apply looks_float_spec in X. congruence.
Qed.

(** A handler that fails ends the loop. *)
Lemma handed_until on ven l : forall all, hand_over (fun _ => Ok tt) ven l = (all, Ok tt) ->
  ((forall c, In c all -> on c = Ok tt) -> hand_over on ven l = (all, Ok tt))
  /\ (forall a c b e, all = (a ++ c :: b)%list -> (forall c', In c' a -> on c' = Ok tt) -> on c = Raise e -> hand_over on ven l = ((a ++ [c])%list, Raise e)).
Proof.
  induction l as [|r l IH]; intros all H; cbn [hand_over] in H |- *.
  - injection H as <-. split; [reflexivity|]. intros a c b e E. destruct a; discriminate E.
  - destruct (bind (item "event_id" r) (fun i => bind (item "opt_type" r) (fun o => Ok (mk_call ven i o)))) as [c0|]; [|discriminate H].
    destruct (hand_over (fun _ => Ok tt) ven l) as [calls out] eqn:E. injection H as <- ->. destruct (IH calls eq_refl) as [A B]. split.
    + intros O. rewrite (O c0 (or_introl eq_refl)), A; [reflexivity|]. intros c I. apply O. now right.
    + intros a c b e EA O F. destruct a as [|a0 a]; injection EA as -> ->; [now rewrite F|]. rewrite (O a0 (or_introl eq_refl)), (B a c b e eq_refl); [reflexivity | | exact F]. intros c' I. apply O. now right.
Qed.
