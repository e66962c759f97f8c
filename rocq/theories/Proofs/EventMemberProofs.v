(** Members of events that normalize_dict keeps: active periods, signals, and
    the events themselves. *)
From Coq Require Import ZArith String Ascii List Bool Lia Arith.
From Verif.Base Require Import Result Dict PyStr ListExtra.
From Verif.Model Require Import Duration DateTime Text Normalize.
From Verif.Proofs Require Import NormalizeProofs CalmProofs MemberProofs.
Import ListNotations.
Local Open Scope string_scope.

Section Members.
Context (num : numbers).
Local Notation nz := (normalize num).
Local Notation made := (made num).
Local Notation carried := (carried num).
Local Notation steady := (steady num).
Local Notation becomes := (becomes num).

Lemma carried_both out src (A B : string -> val -> Prop) (DA DB : val -> Prop) (T : Prop) : carried (mk_field out src A DA) -> carried (mk_field out src B DB) ->
  carried (mk_field out src (fun q u => A q u /\ (T -> B q u)) (fun u => DA u /\ (T -> DB u))).
Proof.
  intros CA CB m k u new M E S [F G] TU. destruct (CA m k u new M E S F TU) as [A1 A2]. split; [exact A1|]. intros q w I J. destruct (A2 q w I J) as [K1 K2].
  assert (X : T -> B q w /\ (q = out -> DB w)) by (intros t; exact (proj2 (CB m k u new M E S (G t) TU) q w I J)). split.
  - split; [exact K1 | intros t; exact (proj1 (X t))].
  - intros Q. split; [exact (K2 Q) | intros t; exact (proj2 (X t) Q)].
Qed.

(** ** A time, or a text in its place *)
Definition moment (v : val) : Prop := scalar_val v = true \/ exists w, v = VDict [("date-time", w)] /\ scalar_val w = true.
Definition a_moment (q : string) : field := mk_field q [q] (fun _ u => moment u) (fun u => scalar_val u = true).
Lemma carried_moment q : general_key q = true -> leaf_key q = true ->
  existsb (String.eqb q) ["signal_payload"; "current_value"; "report_payload"; "test_event"; "date_time"; "duration"] = false -> butlast q <> "date_time" -> q <> "uid" -> carried (a_moment q).
Proof.
  intros G L K BL U m k u new M E [S|[]] F (v & VV & MA). cbn [fst snd f_src f_out f_kind a_moment] in *. rewrite E, <- S in *.
  assert (X : exists t, scalar_val t = true /\ new = [(q, t)]).
  { destruct F as [SC|(s & -> & P)].
    - rewrite value_scalar in VV by exact SC. pose proof (interpret_scalar num q u v SC VV) as SV. rewrite made_leaf in MA by (assumption || (now destruct v)). injection MA as <-. eauto.
    - cbn [value_of] in VV. destruct (nz m [("date-time", s)]) as [y|] eqn:N; [|discriminate VV]. injection VV as <-.
      destruct (single_nz num m "date-time" s y eq_refl eq_refl eq_refl P N) as (d & I & -> & SD). change (fkey "date-time") with "date_time" in MA.
      rewrite made_general in MA by assumption. unfold unnest in MA. cbn [existsb] in K. rewrite !orb_false_iff in K. destruct K as (K1 & K2 & K3 & K4 & K5 & K6 & _).
      change (vmem "duration" [("date_time", d)]) with false in MA. cbn [andb] in MA.
      assert (V1 : vmem q [("date_time", d)] = false) by (unfold vmem, mem; cbn; now rewrite K5).
      assert (V2 : vmem (butlast q) [("date_time", d)] = false) by (apply String.eqb_neq in BL; unfold vmem, mem; cbn; now rewrite BL).
      rewrite V1, V2 in MA. cbn [andb existsb] in MA. rewrite K1, K2, K3, K4 in MA. cbn [orb] in MA. change (vmem "text" [("date_time", d)]) with false in MA.
      change (vmem "date_time" [("date_time", d)] && Nat.eqb (length [("date_time", d)]) 1) with true in MA. cbn [andb] in MA. cbv iota in MA. injection MA as <-. eauto. }
  destruct X as (t & ST & ->). split; [apply vmem_one|]. intros q' w [[= <- <-]|[]] _. split; [now left | now intros _].
Qed.

(** ** Keys occur once *)
Lemma nodup_finish k v d d' : ~ In k unusual -> NoDup (keys d) -> finish num k v d = Ok d' -> NoDup (keys d').
Proof.
  intros U N. assert (O1 : existsb (String.eqb k) unusual = false).
  { destruct (existsb _ _) eqn:E; [|reflexivity]. exfalso. apply U. now apply existsb_in in E. }
  unfold unusual in O1. cbn [existsb] in O1. rewrite !orb_false_iff in O1. destruct O1 as (O1 & O2 & O3 & _).
  unfold finish, tidy. assert (NS : forall q w (e : vdict), NoDup (keys e) -> NoDup (keys (vset q w e))) by (intros; now apply (nodup_set String.eqb String.eqb_eq)).
  assert (ND : forall q (e : vdict), NoDup (keys e) -> NoDup (keys (vdel q e))) by (intros; now apply (nodup_del String.eqb)).
  destruct (k =? "target"). { destruct (new_targets v); [|discriminate]. intros [= <-]. auto. }
  rewrite O1. cbn [existsb]. rewrite O2, O3. cbn [orb andb].
  destruct ((k =? "event") && _). { destruct v; try (intros [= <-]; now auto). destruct (mapM as_event l); [|discriminate]. intros [= <-]. auto. }
  destruct ((k =? "event") && _). { destruct (as_event v); [|discriminate]. intros [= <-]. auto. }
  destruct ((k =? "report_request") || _). { intros [= <-]. auto. }
  destruct ((k =? "report_description") || _). { destruct (measured_all _); [|discriminate]. intros [= <-]. auto. }
  destruct ((k =? "qualified_event_id") && _).
  { destruct v; try (intros [= <-]; now auto). destruct (vget "event_id" d0); [|discriminate]. destruct (vget "modification_number" d0); [|discriminate]. intros [= <-]. auto. }
  destruct (unnest num k v) as [[]|]; [| |discriminate]; intros [= <-]; auto.
Qed.
Lemma nodup_nz m x y : lacks unusual x -> nz m x = Ok y -> NoDup (keys y).
Proof.
  destruct m as [|m]; [discriminate|]. cbn [normalize]. assert (N0 : NoDup (keys (@nil (string * val)))) by constructor. revert N0. generalize (@nil (string * val)) as d. revert y.
  induction x as [|[k u] x IH]; intros y d N L H; cbn [foldM] in H; [injection H as <-; exact N|].
  destruct (entry num (nz m) d (k, u)) as [d1|] eqn:E; [|discriminate H]. cbn [bind] in H. apply (IH y d1); [|intros k' u' I; apply (L k' u'); now right | exact H].
  destruct (L k u (or_introl eq_refl)) as [MK|U].
  - unfold entry in E. unfold marked in MK. rewrite MK in E. now injection E as <-.
  - destruct (startswith "@" k) eqn:MK; [unfold entry in E; rewrite MK in E; now injection E as <-|]. destruct (value_of num m (normalize_key k) u) as [v|] eqn:VV.
    + rewrite (entry_value num m d k u v MK VV) in E. exact (nodup_finish _ _ _ _ U N E).
    + exfalso. unfold entry in E. rewrite MK in E. cbv zeta in E. unfold value_of in VV. rewrite VV in E. discriminate E.
Qed.
Lemma few ks (y : vdict) : NoDup (keys y) -> only ks y -> fixed y -> (length y <= length ks)%nat.
Proof.
  intros N O F. assert (I : incl (keys y) ks).
  { intros q J. unfold keys in J. apply in_map_iff in J as ([q' w] & <- & J). cbn [fst]. destruct (F _ _ J) as [F1 F2]. destruct (O _ _ J) as [?|K]; [congruence | now rewrite F1 in K]. }
  replace (length y) with (length (keys y)) by (unfold keys; apply map_length). exact (NoDup_incl_length N I).
Qed.
Lemma only_not ks q (y : vdict) : only ks y -> fixed y -> inb q ks = false -> vmem q y = false.
Proof.
  intros O F I. destruct (vmem q y) eqn:M; [|reflexivity]. apply vmem_in in M as [w M]. destruct (F _ _ M) as [F1 F2]. destruct (O _ _ M) as [?|K]; [congruence|]. rewrite F1 in K. apply inb_in in K. congruence.
Qed.
Lemma closed_lacks ks x : closed ks = true -> only ks x -> lacks unusual x.
Proof.
  intros C O k v I. destruct (O k v I) as [M|K]; [now left|]. right. unfold closed in C. rewrite forallb_forall in C. specialize (C _ K). apply andb_true_iff in C as [_ C].
  apply negb_true_iff in C. intros J. apply inb_in in J. congruence.
Qed.

(** ** Periods *)
Definition period_keys : list string := ["dtstart"; "duration"; "tolerance"; "notification"; "ramp_up"; "recovery"].
Definition a_start (T : Prop) : field := mk_field "dtstart" ["dtstart"] (fun _ u => moment u /\ (T -> timed u)) (fun u => scalar_val u = true /\ (T -> exists t, u = VTime t)).
Definition period_fields (T : Prop) : list field := [a_start T; a_span "duration"].
Definition plain_period (T : Prop) (v : val) : Prop := like period_keys (period_fields T) v.
Definition outer_keys : list string := ["properties"; "components"].
Definition outer_period (T : Prop) (v : val) : Prop := like outer_keys [a_dict "properties" (plain_period T) (settled period_keys (period_fields T))] v.
Definition period (T : Prop) (v : val) : Prop := plain_period T v \/ outer_period T v.
Definition a_period (q : string) (T : Prop) : field := mk_field q [q] (fun _ u => period T u) (settled period_keys (period_fields T)).
Lemma carried_period_fields T : Forall carried (period_fields T).
Proof.
  constructor; [|constructor; [|constructor]].
  - apply (carried_both "dtstart" ["dtstart"] (fun _ u => moment u) (fun _ u => timed u) (fun u => scalar_val u = true) (fun u => exists t, u = VTime t) T); [now apply (carried_moment "dtstart") | now apply (carried_time num "dtstart")].
  - now apply carried_span.
Qed.
Lemma steady_period T : steady (plain_period T).
Proof. apply steady_like; [reflexivity | apply carried_period_fields | reflexivity]. Qed.
Lemma becomes_period T : becomes (plain_period T) (settled period_keys (period_fields T)).
Proof. apply becomes_settled; [reflexivity | apply carried_period_fields | reflexivity]. Qed.
Lemma period_compact T m x y : plain_period T (VDict x) -> nz m x = Ok y -> compact y = true /\ fixed y.
Proof. intros P N. apply (like_compact num period_keys (period_fields T) m x y (a_start T) (a_span "duration")); try reflexivity; try assumption; [apply carried_period_fields | now left | right; now left | discriminate]. Qed.
Lemma carried_outer T : Forall carried [a_dict "properties" (plain_period T) (settled period_keys (period_fields T))].
Proof. constructor; [|constructor]. apply carried_dict; [now left | reflexivity | apply steady_period | apply becomes_period | apply period_compact]. Qed.
Lemma carried_period q T : general_key q = true -> dict_key q = true -> leaf_key q = true -> inb q outer_keys = false -> inb (butlast q) outer_keys = false -> carried (a_period q T).
Proof.
  intros G D L O1 O2 m k u new M E [S|[]] F (v & VV & MA). cbn [fst snd f_src f_out f_kind a_period] in *. rewrite E, <- S in *.
  assert (X : exists z, new = [(q, VDict z)] /\ settled period_keys (period_fields T) (VDict z)).
  { destruct F as [(x & -> & F)|(x & -> & F)]; cbn [value_of] in VV; destruct (nz m x) as [y|] eqn:N; try discriminate VV; injection VV as <-.
    - assert (P : plain_period T (VDict x)) by (now exists x). exists y. split; [|exact (becomes_period T m x y P N)]. rewrite made_compact in MA by (assumption || exact (proj1 (period_compact T m x y P N))). congruence.
    - assert (P : outer_period T (VDict x)) by (now exists x). destruct (like_kept num outer_keys _ m x y eq_refl (carried_outer T) eq_refl P N) as (_ & TH & ON & FX).
      pose proof (Forall_inv TH) as (w & GW & KW). cbn [f_out f_done a_dict] in GW, KW. destruct (proj1 (steady_period T) w (proj1 KW)) as [z ->]. exists z. split; [|exact KW].
      pose proof (few outer_keys y (nodup_nz m x y (closed_lacks outer_keys x eq_refl (proj1 F)) N) ON FX) as LE. cbn [length outer_keys] in LE.
      rewrite made_general in MA by exact G. unfold unnest in MA. rewrite (only_not outer_keys "duration" y ON FX eq_refl), (only_not outer_keys q y ON FX O1), (only_not outer_keys (butlast q) y ON FX O2),
        (only_not outer_keys "text" y ON FX eq_refl), (only_not outer_keys "date_time" y ON FX eq_refl) in MA. cbn [andb] in MA. unfold dict_key in D. apply negb_true_iff in D. cbn [existsb] in D. rewrite !orb_false_iff in D. destruct D as (D1 & D2 & D3 & D4 & _).
      cbn [existsb] in MA. rewrite D1, D2, D3, D4 in MA. cbn [orb] in MA. assert (VM : vmem "properties" y = true) by (apply vmem_in; exists (VDict z); now apply vget_in).
      apply Nat.leb_le in LE. rewrite VM, LE in MA. cbn [andb] in MA. cbv iota in MA. rewrite GW in MA. cbn [bind] in MA. congruence. }
  destruct X as (z & -> & P). split; [apply vmem_one|]. intros q' w [[= <- <-]|[]] _. split; [left; exact (proj1 P) | intros _; exact P].
Qed.

(** ** Signals *)
Definition signal_keys : list string :=
  (["intervals"; "target"; "targets"; "targets_by_type"; "signal_name"; "signal_type"; "signal_id"; "current_value"; "measurement"; "currency_per_kw"; "gbdata_description"] ++ measurement_namespaces)%list.
Definition anything : val -> Prop := fun _ => True.
Definition signal_fields : list field := [a_scalar "signal_name" anything].
Definition signal (v : val) : Prop := like signal_keys signal_fields v.
Definition a_signal : val -> Prop := settled signal_keys signal_fields.
Definition holder_keys : list string := ["event_signal"; "event_signals"; "event_baseline"].
Definition signal_holder (v : val) : Prop := like holder_keys [a_list "event_signal" signal a_signal] v.
Definition signals (v : val) : Prop := (exists l, v = VList l /\ all_items signal v) \/ signal_holder v.
Definition signals_read (u : val) : Prop := listed a_signal u \/ exists y w, u = VDict y /\ vget "event_signals" y = Some w /\ listed a_signal w.
Definition a_signals : field := mk_field "event_signals" ["event_signals"] (fun _ u => signals u) signals_read.
Lemma carried_signal : Forall carried signal_fields.
Proof. constructor; [|constructor]. now apply carried_scalar. Qed.
Lemma steady_signal : steady signal.
Proof. apply steady_like; [vm_compute; reflexivity | apply carried_signal | vm_compute; reflexivity]. Qed.
Lemma becomes_signal : becomes signal a_signal.
Proof. apply becomes_settled; [vm_compute; reflexivity | apply carried_signal | vm_compute; reflexivity]. Qed.
Lemma has_vset x q w f : marked q = false -> ~ In (fkey q) (f_src f) -> has x f -> has (vset q w x) f.
Proof.
  intros M NI [(k & u & I & MK & S) H]. split.
  - exists k, u. split; [|now split]. unfold vset. assert (NE : k <> q) by (intros ->; now apply NI). clear - I NE. induction x as [|[k' v'] x IH]; [destruct I|]. cbn [set]. destruct (q =? k') eqn:E.
    + apply String.eqb_eq in E. subst k'. destruct I as [[= -> ->]|I]; [now contradiction NE | now right].
    + destruct I as [I|I]; [now left | right; now apply IH].
  - intros k' u' J MK' S'. apply vset_in in J as [[= -> ->]|J]; [now contradiction NI | now apply H].
Qed.
Lemma has_vdel x q f : ~ In (fkey q) (f_src f) -> has x f -> has (vdel q x) f.
Proof.
  intros NI [(k & u & I & MK & S) H]. split.
  - exists k, u. split; [|now split]. unfold vdel, del. assert (NE : k <> q) by (intros ->; now apply NI). clear - I NE. induction x as [|[k' v'] x IH]; [destruct I|]. cbn. destruct (q =? k') eqn:E.
    + apply String.eqb_eq in E. subst k'. destruct I as [[= -> ->]|I]; [now contradiction NE|]. first [exact I | now apply IH | (cbn; now apply IH)].
    + cbn. destruct I as [I|I]; [now left | right; now apply IH].
  - intros k' u' J MK' S'. apply vdel_in in J. now apply H.
Qed.
Lemma remeasured_signal : remeasured signal.
Proof.
  intros v r (x & -> & O & F) M. unfold measured in M. destruct (find _ measurement_namespaces) as [name|] eqn:FN; [|discriminate M]. apply find_some in FN as [IN _].
  destruct (vget name x) as [[| | | | | | | |item]|]; try discriminate M. cbv zeta in M.
  assert (X : exists w, r = VDict (vset "measurement" w (vdel name x))) by (eexists; injection M as <-; reflexivity). destruct X as [w ->]. clear M.
  assert (NS : fkey name <> "signal_name").
  { intros E. assert (A : forallb (fun n => negb (fkey n =? "signal_name")) measurement_namespaces = true) by (vm_compute; reflexivity). rewrite forallb_forall in A. specialize (A name IN). rewrite E in A. discriminate A. }
  exists (vset "measurement" w (vdel name x)). split; [reflexivity|]. split.
  - intros k u I. apply vset_in in I as [[= -> ->]|I]; [right; vm_compute; tauto | apply vdel_in in I; exact (O _ _ I)].
  - constructor; [|constructor]. apply has_vset; [reflexivity | intros [E|[]]; discriminate E|]. apply has_vdel; [intros [E|[]]; now apply NS | exact (Forall_inv F)].
Qed.
Lemma vget_other q k w (x : vdict) : q <> k -> vget q (vset k w x) = vget q x.
Proof.
  intros N. unfold vget, vset. induction x as [|[k' v'] x IH]; cbn.
  - apply String.eqb_neq in N. now rewrite N.
  - destruct (k =? k') eqn:E; cbn.
    + apply String.eqb_eq in E. subst k'. apply String.eqb_neq in N. now rewrite N.
    + destruct (q =? k'); [reflexivity | exact IH].
Qed.
Lemma vget_same k w (x : vdict) : vget k (vset k w x) = Some w.
Proof. unfold vget, vset. induction x as [|[k' v'] x IH]; cbn; [now rewrite String.eqb_refl|]. destruct (k =? k') eqn:E; cbn; rewrite E; [reflexivity | exact IH]. Qed.
Lemma vget_gone q k (x : vdict) : q <> k -> vget q (vdel k x) = vget q x.
Proof.
  intros N. unfold vget, vdel. induction x as [|[k' v'] x IH]; cbn; [reflexivity|]. destruct (k =? k') eqn:E; cbn.
  - apply String.eqb_eq in E. subst k'. apply String.eqb_neq in N. now rewrite N.
  - destruct (q =? k'); [reflexivity | exact IH].
Qed.
Lemma remeasured_read : remeasured a_signal.
Proof.
  intros v r [L (x & -> & TH & O & FX)] M. split; [exact (remeasured_signal _ _ L M)|]. unfold measured in M. destruct (find _ measurement_namespaces) as [name|] eqn:FN; [|discriminate M]. apply find_some in FN as [IN _].
  destruct (vget name x) as [[| | | | | | | |item]|]; try discriminate M. cbv zeta in M.
  assert (X : exists w, r = VDict (vset "measurement" w (vdel name x))) by (eexists; injection M as <-; reflexivity). destruct X as [w ->]. clear M.
  assert (NS : "signal_name" <> name).
  { intros E. assert (A : forallb (fun n => negb (n =? "signal_name")) measurement_namespaces = true) by (vm_compute; reflexivity). rewrite forallb_forall in A. specialize (A name IN). rewrite <- E in A. discriminate A. }
  exists (vset "measurement" w (vdel name x)). split; [reflexivity|]. split; [|split].
  - constructor; [|constructor]. destruct (Forall_inv TH) as (z & G & K). exists z. split; [|exact K]. cbn [f_out a_scalar] in *. rewrite vget_other by discriminate. now rewrite vget_gone.
  - intros k u I. apply vset_in in I as [[= -> ->]|I]; [right; vm_compute; tauto | apply vdel_in in I; exact (O _ _ I)].
  - intros k u I. apply vset_in in I as [[= -> ->]|I]; [now split | apply vdel_in in I; exact (FX _ _ I)].
Qed.
Lemma carried_holder : Forall carried [a_list "event_signal" signal a_signal].
Proof. constructor; [|constructor]. apply carried_list; [right; split; [reflexivity | split; [apply remeasured_signal | apply remeasured_read]] | apply steady_signal | apply becomes_signal]. Qed.
Lemma carried_signals : carried a_signals.
Proof.
  intros m k u new M E [S|[]] F (v & VV & MA). cbn [fst snd f_src f_out f_kind a_signals] in *. rewrite E, <- S in *.
  assert (X : exists z, new = [("event_signals", z)] /\ signals z /\ signals_read z).
  { destruct F as [(l & -> & F)|(x & -> & F)].
    - destruct (items_valued num signal m "event_signals" (VList l) v steady_signal F VV) as (A & B & _). destruct (B (ex_intro _ l eq_refl)) as [l' ->]. rewrite made_leaf in MA by reflexivity. injection MA as <-. pose proof (items_normed num signal a_signal m "event_signals" (VList l) _ steady_signal becomes_signal F VV) as FD. exists (VList l'). split; [reflexivity|]. split; [left; now exists l' | left]. exists l'. split; [reflexivity|]. split; [exact (proj1 A) | exact FD].
    - cbn [value_of] in VV; destruct (nz m x) as [y|] eqn:N; try discriminate VV; injection VV as <-.
      assert (P : signal_holder (VDict x)) by (now exists x). destruct (like_kept num holder_keys _ m x y eq_refl carried_holder eq_refl P N) as (LK & TH & ON & FX).
      pose proof (Forall_inv TH) as (w & GW & l & -> & NL & FL). cbn [f_out a_list] in GW. change ("event_signal" ++ "s") with "event_signals" in GW.
      assert (SL : Forall signal l) by (eapply Forall_impl; [|exact FL]; intros i K; exact (proj1 K)).
      rewrite made_general in MA by reflexivity. unfold unnest in MA. change (butlast "event_signals") with "event_signal" in MA.
      rewrite (only_not holder_keys "duration" y ON FX eq_refl), (only_not holder_keys "text" y ON FX eq_refl), (only_not holder_keys "date_time" y ON FX eq_refl), (only_not holder_keys "properties" y ON FX eq_refl) in MA.
      assert (VM : vmem "event_signals" y = true) by (apply vmem_in; exists (VList l); now apply vget_in). rewrite VM in MA. cbn [andb] in MA. cbv zeta in MA. destruct (Nat.eqb (length y) 1) eqn:L1.
      + rewrite GW in MA. cbn [bind] in MA. injection MA as <-. exists (VList l). split; [reflexivity|]. split; [left; exists l; split; [reflexivity | now split] | left; exists l; now split].
      + rewrite andb_false_r in MA. cbn [existsb String.eqb Ascii.eqb Bool.eqb orb andb] in MA. assert (L0 : Nat.eqb (length y) 0 = false) by (destruct y; [discriminate VM | reflexivity]).
        rewrite L0 in MA. cbn [bind] in MA. injection MA as <-. exists (VDict y). split; [reflexivity|]. split; [now right | right]. exists y, (VList l). split; [reflexivity|]. split; [exact GW|]. exists l. now split. }
  destruct X as (z & -> & P & PR). split; [apply vmem_one|]. intros q' w [[= <- <-]|[]] _. split; [exact P | intros _; exact PR].
Qed.

(** ** Events *)
Definition descriptor_keys : list string :=
  ["event_id"; "modification_number"; "modification_date_time"; "modification_reason"; "priority"; "market_context"; "created_date_time"; "event_status"; "test_event"; "vtn_comment"].
Definition descriptor_fields : list field := [a_scalar "event_id" anything; a_scalar "modification_number" anything; a_scalar "event_status" anything].
Definition descriptor (v : val) : Prop := like descriptor_keys descriptor_fields v.
Lemma carried_descriptor : Forall carried descriptor_fields.
Proof. constructor; [now apply carried_scalar|]. constructor; [now apply carried_scalar|]. constructor; [now apply carried_scalar | constructor]. Qed.
Lemma steady_descriptor : steady descriptor.
Proof. apply steady_like; [vm_compute; reflexivity | apply carried_descriptor | vm_compute; reflexivity]. Qed.
Lemma descriptor_compact m x y : descriptor (VDict x) -> nz m x = Ok y -> compact y = true /\ fixed y.
Proof. intros P N. apply (like_compact num descriptor_keys descriptor_fields m x y (a_scalar "event_id" anything) (a_scalar "modification_number" anything)); [vm_compute; reflexivity | apply carried_descriptor | vm_compute; reflexivity | now left | right; now left | discriminate | reflexivity | exact P | exact N]. Qed.
Definition event_keys : list string := ["event_descriptor"; "active_period"; "event_signals"; "target"; "targets"; "targets_by_type"; "response_required"].
Definition inner_keys : list string := ["event_descriptor"; "active_period"; "event_signals"; "target"; "targets"; "targets_by_type"].
Definition event_fields (T : Prop) : list field := [a_dict "event_descriptor" descriptor (settled descriptor_keys descriptor_fields); a_period "active_period" T; a_signals].
Definition inner_event (T : Prop) (v : val) : Prop := like inner_keys (event_fields T) v.
Definition whole_fields (T : Prop) : list field := a_scalar "response_required" anything :: event_fields T.
Definition whole_event (T : Prop) (v : val) : Prop := like event_keys (whole_fields T) v.
Lemma carried_event T : Forall carried (event_fields T).
Proof.
  constructor; [|constructor; [|constructor; [|constructor]]].
  - apply carried_dict; [now left | reflexivity | apply steady_descriptor | apply becomes_settled; [vm_compute; reflexivity | apply carried_descriptor | vm_compute; reflexivity] | apply descriptor_compact].
  - now apply carried_period.
  - apply carried_signals.
Qed.
Lemma carried_whole T : Forall carried (whole_fields T).
Proof. constructor; [now apply carried_scalar | apply carried_event]. Qed.
Lemma steady_inner T : steady (inner_event T).
Proof. apply steady_like; [vm_compute; reflexivity | apply carried_event | vm_compute; reflexivity]. Qed.
Lemma steady_whole T : steady (whole_event T).
Proof. apply steady_like; [vm_compute; reflexivity | apply carried_whole | vm_compute; reflexivity]. Qed.
Lemma inner_event_compact T m x y : inner_event T (VDict x) -> nz m x = Ok y -> compact y = true /\ fixed y.
Proof. intros P N. apply (like_compact num inner_keys (event_fields T) m x y (a_dict "event_descriptor" descriptor (settled descriptor_keys descriptor_fields)) a_signals); [vm_compute; reflexivity | apply carried_event | vm_compute; reflexivity | now left | right; right; now left | discriminate | reflexivity | exact P | exact N]. Qed.
Definition container_keys : list string := ["event"; "events"; "response_required"].
Definition container_fields (T : Prop) : list field := [a_dict "event" (inner_event T) (settled inner_keys (event_fields T)); a_scalar "response_required" anything].
Definition container (T : Prop) (v : val) : Prop := like container_keys (container_fields T) v.
Lemma carried_container T : Forall carried (container_fields T).
Proof.
  constructor; [|constructor; [now apply carried_scalar | constructor]].
  apply carried_dict; [right; split; [reflexivity|] | reflexivity | apply steady_inner | apply becomes_settled; [vm_compute; reflexivity | apply carried_event | vm_compute; reflexivity] | apply inner_event_compact].
  intros x (x' & [= <-] & O & _) F. exact (only_not inner_keys "event" x O F eq_refl).
Qed.
Lemma steady_container T : steady (container T).
Proof. apply steady_like; [vm_compute; reflexivity | apply carried_container | vm_compute; reflexivity]. Qed.
Lemma in_vset k r (d : vdict) : In (k, r) (vset k r d).
Proof. unfold vset. induction d as [|[k' v] d IH]; [now left|]. cbn [set]. destruct (String.eqb k k') eqn:E; [left; apply String.eqb_eq in E; now subst k' | now right]. Qed.
Lemma whole_of T d r : inner_event T (VDict d) -> scalar_val r = true -> whole_event T (VDict (vset "response_required" r d)).
Proof.
  intros (x & [= <-] & O & F) S. exists (vset "response_required" r d). split; [reflexivity|]. split.
  - intros k u I. apply vset_in in I as [[= -> ->]|I]; [right; vm_compute; tauto|]. destruct (O _ _ I) as [M|J]; [now left | right]. revert J. clear. unfold inner_keys, event_keys. cbn [In]. tauto.
  - constructor.
    + split.
      * exists "response_required", r. split; [apply in_vset | split; [reflexivity | now left]].
      * intros k u I M [E|[]]. cbn [f_src a_scalar] in E. apply vset_in in I as [[= -> ->]|I]; [split; [reflexivity | now split]|]. exfalso. destruct (O _ _ I) as [?|J]; [congruence|]. rewrite <- E in J.
        apply inb_in in J. discriminate J.
    + rewrite Forall_forall in *. intros f I. apply has_vset; [reflexivity| |now apply F]. repeat (destruct I as [<-|I]; [intros [J|[]]; discriminate J|]). destruct I.
Qed.

Definition event_read (T : Prop) : val -> Prop := settled event_keys (whole_fields T).
Lemma read_of T d r : settled inner_keys (event_fields T) (VDict d) -> scalar_val r = true -> event_read T (VDict (vset "response_required" r d)).
Proof.
  intros [L (x & [= <-] & TH & O & FX)] S. split; [now apply whole_of|]. exists (vset "response_required" r d). split; [reflexivity|]. split; [|split].
  - constructor; [exists r; split; [apply vget_same | now split]|]. unfold there in TH. rewrite Forall_forall in *. intros f I. destruct (TH f I) as (w & G & K). exists w. split; [|exact K].
    rewrite vget_other; [exact G|]. repeat (destruct I as [<-|I]; [discriminate|]). destruct I.
  - intros k u I. apply vset_in in I as [[= -> ->]|I]; [right; vm_compute; tauto|]. destruct (O _ _ I) as [M|J]; [now left | right]. revert J. clear. unfold inner_keys, event_keys. cbn [In]. tauto.
  - intros k u I. apply vset_in in I as [[= -> ->]|I]; [now split | exact (FX _ _ I)].
Qed.
Lemma becomes_container T : becomes (container T) (settled container_keys (container_fields T)).
Proof. apply becomes_settled; [vm_compute; reflexivity | apply carried_container | vm_compute; reflexivity]. Qed.
Lemma becomes_whole T : becomes (whole_event T) (event_read T).
Proof. apply becomes_settled; [vm_compute; reflexivity | apply carried_whole | vm_compute; reflexivity]. Qed.
Definition a_events (T : Prop) : field := mk_field "events" ["event"; "events"]
  (fun q u => (q = "event" -> all_items (container T) u) /\ (q = "events" -> exists l, u = VList l /\ all_items (whole_event T) u)) (listed (event_read T)).
Lemma carried_events T : carried (a_events T).
Proof.
  intros m k u new M E S [F1 F2] (v & VV & MA). cbn [fst snd f_src f_out f_kind a_events] in *. rewrite E in *.
  assert (X : exists l, new = [("events", VList l)] /\ l <> [] /\ Forall (event_read T) l).
  { destruct S as [S|[S|[]]]; rewrite <- S in *.
    - specialize (F1 eq_refl). destruct (items_valued num (container T) m "event" u v (steady_container T) F1 VV) as ((NE & _) & _).
      pose proof (items_normed num _ _ m "event" u v (steady_container T) (becomes_container T) F1 VV) as TH.
      assert (EV : eventual "event" v = true).
      { unfold eventual. change ("event" =? "event")%string with true. cbn [andb]. destruct v; try (exfalso; cbn [items_of] in TH; destruct (Forall_inv TH) as [_ (? & EQ & _)]; discriminate EQ); [reflexivity|].
        cbn [items_of] in TH. destruct (Forall_inv TH) as [_ (y & [= <-] & TY & _)]. pose proof (Forall_inv TY) as (w & G & _). apply vmem_in. exists w. now apply vget_in. }
      unfold MemberProofs.made in MA. rewrite EV in MA. destruct (mapM as_event (items_of v)) as [es|] eqn:ME; [|discriminate MA]. cbn [bind] in MA. injection MA as <-. exists es. split; [reflexivity|].
      revert es ME NE TH. clear. generalize (items_of v). intros l es ME NE TH. assert (W : Forall (event_read T) es /\ length es = length l).
      { clear NE. revert es ME TH. induction l as [|i l IH]; intros es ME TH; cbn [mapM] in ME; [injection ME as <-; now split|].
        destruct (as_event i) as [e|] eqn:AE; [|discriminate ME]. cbn [bind] in ME. destruct (mapM as_event l) as [r|] eqn:MR; [|discriminate ME]. cbn [bind] in ME. injection ME as <-.
        destruct (IH r eq_refl (Forall_inv_tail TH)) as [A B]. split; [|cbn; now rewrite B]. constructor; [|exact A]. destruct (Forall_inv TH) as [_ (y & -> & TY & _)]. pose proof (Forall_inv TY) as (w & G & K). pose proof (Forall_inv (Forall_inv_tail TY)) as (r2 & G2 & K2 & _).
        cbn [f_out f_done a_dict a_scalar] in *. unfold as_event in AE. rewrite G, G2 in AE. pose proof K as [_ (ev & EV & _)]. subst w. injection AE as <-. now apply read_of. }
      split; [|exact (proj1 W)]. destruct l; [now contradiction NE|]. destruct es; [destruct W as [_ W]; discriminate W | discriminate].
    - destruct (F2 eq_refl) as (l & -> & F). destruct (items_valued num (whole_event T) m "events" (VList l) v (steady_whole T) F VV) as (A & B & _). destruct (B (ex_intro _ l eq_refl)) as [l' ->]. rewrite made_leaf in MA by reflexivity. injection MA as <-. exists l'.
      split; [reflexivity|]. split; [exact (proj1 A)|]. exact (items_normed num _ _ m "events" (VList l) _ (steady_whole T) (becomes_whole T) F VV). }
  destruct X as (l & -> & NL & A). split; [reflexivity|]. intros q w [[= <- <-]|[]] _. split; [|intros _; now exists l]. split; [discriminate|]. intros _. exists l. split; [reflexivity|]. split; [exact NL|].
  cbn [items_of]. eapply Forall_impl; [|exact A]. intros i K. exact (proj1 K).
Qed.
End Members.
