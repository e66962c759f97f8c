(** Members that normalize_dict keeps: dicts with required members, of which
    each is of some kind, stay such dicts, however often they are normalized
    (the elements of lists are normalized twice). *)
From Coq Require Import ZArith String Ascii List Bool Lia Arith.
From Verif.Base Require Import Result Dict PyStr ListExtra.
From Verif.Model Require Import Duration DateTime Text Normalize.
From Verif.Proofs Require Import NormalizeProofs CalmProofs.
Import ListNotations.
Local Open Scope string_scope.

Section Members.
Context (num : numbers).
Local Notation nz := (normalize num).

(** ** One round of the loop, seen from its success *)
(** The event of oadrEvent, which becomes one of events. *)
Definition eventual (k : string) (v : val) : bool := (k =? "event") && match v with VDict p => vmem "event" p | VList _ => true | _ => false end.
Definition made (k : string) (v : val) : result vdict :=
  if eventual k v then bind (mapM as_event (items_of v)) (fun es => Ok [("events", VList es)]) else news num k v.
Definition unusual : list string := ["pending_reports"; "request_event"; "created_event"].

Lemma finish_made k v d d' : ~ In k unusual -> finish num k v d = Ok d' -> exists new, made k v = Ok new /\ effect k new d d'.
Proof.
  intros U F. assert (O1 : existsb (String.eqb k) unusual = false).
  { destruct (existsb _ _) eqn:E; [|reflexivity]. exfalso. apply U. now apply existsb_in in E. }
  unfold made. destruct (eventual k v) eqn:EV.
  - unfold eventual in EV. apply andb_true_iff in EV as [K EV]. apply String.eqb_eq in K. subst k.
    assert (E2 : exists es, mapM as_event (items_of v) = Ok es /\ d' = vset "events" (VList es) (vdel "event" (vset "event" v d))).
    { destruct v as [| | | | | | |l|p]; try discriminate EV; unfold finish, tidy in F; cbn [existsb] in F.
      - cbn [String.eqb Ascii.eqb Bool.eqb andb orb] in F. destruct (mapM as_event l) as [es|] eqn:M; [|discriminate F]. exists es. split; [exact M|]. cbn [bind] in F. congruence.
      - cbn [String.eqb Ascii.eqb Bool.eqb andb orb] in F. rewrite EV in F. cbn [items_of mapM]. destruct (as_event (VDict p)) as [e|]; [|discriminate F]. exists [e]. split; [reflexivity|]. cbn [bind] in F. congruence. }
    destruct E2 as (es & M & ->). rewrite M. cbn [bind]. eexists. split; [reflexivity|]. rewrite vdel_vset.
    apply (effect_then "event" [] d _ "events"). apply effect_del.
  - assert (O : ordinary k v = true).
    { unfold ordinary. unfold unusual in O1. rewrite O1. cbn [negb andb]. unfold eventual in EV. destruct (k =? "event"); [|reflexivity]. cbn [andb negb orb] in *. destruct v; try reflexivity; try discriminate EV. now rewrite EV. }
    destruct (news num k v) as [new|e] eqn:N.
    + destruct (finish_news num k v d new O N) as (d2 & F2 & EF). rewrite F in F2. injection F2 as <-. now exists new.
    + exfalso. revert O N F. clear. unfold ordinary, news, finish, tidy, listing, describing. cbn [existsb]. rewrite !orb_false_r. intros O N F.
      apply andb_true_iff in O as [O E]. rewrite negb_true_iff, !orb_false_iff in O. destruct O as (O1 & O2 & O3).
      destruct (k =? "target") eqn:T. { destruct (new_targets v); [discriminate N | discriminate F]. }
      rewrite O1, O2, O3 in F. cbn [orb andb] in F.
      assert (E1 : (k =? "event") && match v with VList _ => true | _ => false end = false) by (destruct (k =? "event"); [now destruct v | reflexivity]).
      assert (E2 : (k =? "event") && match v with VDict p => vmem "event" p | _ => false end = false).
      { destruct (k =? "event"); [|reflexivity]. destruct v; try reflexivity. cbn in E. now destruct (vmem "event" d0). }
      rewrite E1, E2 in F. clear E1 E2.
      destruct ((k =? "report_request") || ((k =? "report") || (k =? "specifier_payload"))); [discriminate N|].
      destruct ((k =? "report_description") || (k =? "event_signal")).
      { unfold items_of in N. destruct (measured_all _); [discriminate N | discriminate F]. }
      destruct ((k =? "qualified_event_id") && match v with VDict _ => true | _ => false end).
      { destruct v; try discriminate N. destruct (vget "event_id" _); [|discriminate F]. destruct (vget "modification_number" _); [discriminate N | discriminate F]. }
      destruct (unnest num k v); [discriminate N | discriminate F].
Qed.

(** [new] is what an entry leads to. *)
Definition turns (m : nat) (kv : string * val) (new : vdict) : Prop :=
  exists v, value_of num m (normalize_key (fst kv)) (snd kv) = Ok v /\ made (fkey (fst kv)) v = Ok new.
Lemma turns_same m kv a b : turns m kv a -> turns m kv b -> a = b.
Proof. intros (v & V & A) (w & W & B). rewrite V in W. injection W as <-. congruence. Qed.
Lemma entry_turns m d k u d' : marked k = false -> ~ In (fkey k) unusual -> entry num (nz m) d (k, u) = Ok d' -> exists new, turns m (k, u) new /\ effect (fkey k) new d d'.
Proof.
  intros M U E. destruct (value_of num m (normalize_key k) u) as [v|] eqn:V.
  - rewrite (entry_value num m d k u v M V) in E. destruct (finish_made _ _ _ _ U E) as (new & N & EF). exists new. split; [|exact EF]. exists v. now split.
  - exfalso. unfold entry in E. unfold marked in M. rewrite M in E. cbv zeta in E. unfold value_of in V. rewrite V in E. discriminate E.
Qed.
Record runs (m : nat) (x y : vdict) : Prop := mk_runs {
  ru_from : forall q w, In (q, w) y -> exists k u new, In (k, u) x /\ marked k = false /\ turns m (k, u) new /\ In (q, w) new;
  ru_turns : forall k u, In (k, u) x -> marked k = false -> exists new, turns m (k, u) new;
  ru_kept : forall q, (exists k u new, In (k, u) x /\ marked k = false /\ turns m (k, u) new /\ vmem q new = true) ->
     (forall k u new, In (k, u) x -> marked k = false -> fkey k = q -> turns m (k, u) new -> vmem q new = true) -> vmem q y = true }.
Lemma runs_of m x y : lacks unusual x -> nz (S m) x = Ok y -> runs m x y.
Proof.
  intros L H. cbn [normalize] in H.
  enough (G : forall l d y, lacks unusual l -> foldM (entry num (nz m)) l d = Ok y ->
      (forall q w, In (q, w) y -> In (q, w) d \/ exists k u new, In (k, u) l /\ marked k = false /\ turns m (k, u) new /\ In (q, w) new)
      /\ (forall k u, In (k, u) l -> marked k = false -> exists new, turns m (k, u) new)
      /\ (forall q, (vmem q d = true \/ exists k u new, In (k, u) l /\ marked k = false /\ turns m (k, u) new /\ vmem q new = true) ->
          (forall k u new, In (k, u) l -> marked k = false -> fkey k = q -> turns m (k, u) new -> vmem q new = true) -> vmem q y = true)).
  { destruct (G x [] y L H) as (A & B & C). split.
    - intros q w I. destruct (A q w I) as [[]|X]; exact X.
    - exact B.
    - intros q P Q. apply C; [now right | exact Q]. }
  clear x y L H. induction l as [|[k u] l IH]; intros d y L H.
  - cbn in H. injection H as <-. split; [now left|]. split; [intros ? ? []|]. intros q [M|(? & ? & ? & [] & _)] _. exact M.
  - cbn [foldM] in H. destruct (entry num (nz m) d (k, u)) as [d1|] eqn:E; [|discriminate H]. cbn [bind] in H.
    assert (L' : lacks unusual l) by (intros k' u' I; apply (L k' u'); now right).
    destruct (IH d1 y L' H) as (A & B & C). destruct (marked k) eqn:MK.
    + unfold entry in E. unfold marked in MK. rewrite MK in E. injection E as <-. repeat split.
      * intros q w I. destruct (A q w I) as [?|(k' & u' & nw & I2 & R)]; [now left | right; exists k', u', nw; split; [now right | exact R]].
      * intros k' u' [[= <- <-]|I] M'; [unfold marked in M'; congruence | now apply B].
      * intros q P Q. apply C; [|intros k' u' nw I2; apply Q; now right].
        destruct P as [P|(k' & u' & nw & [[= <- <-]|I2] & F & R)]; [now left | unfold marked in F; congruence | right; now exists k', u', nw].
    + destruct (L k u (or_introl eq_refl)) as [?|U]; [congruence|]. destruct (entry_turns m d k u d1 MK U E) as (new & T & [E1 E2 E3]). repeat split.
      * intros q w I. destruct (A q w I) as [I2|(k' & u' & nw & I2 & R)].
        -- destruct (E1 q w I2); [right; exists k, u, new; split; [now left | now repeat split] | now left].
        -- right; exists k', u', nw; split; [now right | exact R].
      * intros k' u' [[= <- <-]|I] M'; [now exists new | now apply B].
      * intros q P Q. apply C; [|intros k' u' nw I2; apply Q; now right].
        destruct (string_dec q (fkey k)) as [->|D].
        -- left. apply E2. apply (Q k u new); try assumption; [now left | reflexivity].
        -- destruct P as [P|(k' & u' & nw & [[= <- <-]|I2] & F2 & R & M2)].
           ++ left. now apply E3.
           ++ left. apply E2. rewrite <- (turns_same _ _ _ _ R T). exact M2.
           ++ right. now exists k', u', nw.
Qed.

(** What may come of a key. *)
Definition produces (k : string) : list string :=
  if k =? "target" then ["targets"; "targets_by_type"]
  else if listing k || describing k then [k ++ "s"]
  else if k =? "qualified_event_id" then ["event_id"; "modification_number"; k]
  else if k =? "event" then ["events"; "event"]
  else [k].
Lemma made_from k v new q w : made k v = Ok new -> In (q, w) new -> In q (produces k).
Proof.
  unfold made, produces. destruct (eventual k v) eqn:EV.
  - apply andb_true_iff in EV as [K _]. apply String.eqb_eq in K. subst k. destruct (mapM as_event (items_of v)); [|discriminate]. cbn [bind]. intros [= <-] [[= <- _]|[]]. now left.
  - unfold news. destruct (k =? "target").
    { destruct (new_targets v); [|discriminate]. intros [= <-] [[= <- _]|[[= <- _]|[]]]; [now left | right; now left]. }
    destruct (listing k); [intros [= <-] [[= <- _]|[]]; now left|]. destruct (describing k).
    { destruct (measured_all _); [|discriminate]. intros [= <-] [[= <- _]|[]]; now left. }
    cbn [orb]. destruct (k =? "qualified_event_id") eqn:Q; cbn [andb].
    { destruct v; try (destruct (unnest num k _) as [[]|]; [intros [= <-] [[= <- _]|[]]; right; right; now left | intros [= <-] [] | discriminate]).
      destruct (vget "event_id" d); [|discriminate]. destruct (vget "modification_number" d); [|discriminate]. intros [= <-] [[= <- _]|[[= <- _]|[]]]; [now left | right; now left]. }
    destruct (unnest num k v) as [[x|]|]; [|intros [= <-] []|discriminate]. intros [= <-] [[= <- _]|[]]. destruct (k =? "event") eqn:KE; [apply String.eqb_eq in KE; subst k; right; now left | now left].
Qed.
Lemma turns_from m k u new q w : turns m (k, u) new -> In (q, w) new -> In q (produces (fkey k)).
Proof. intros (v & _ & M). exact (made_from _ _ _ _ _ M). Qed.

(** ** Dicts with members of some kind *)
(** A member: the key under which it is read in the end, the keys under which
    it may be found before, what it must be like, by the key, and what it is
    like in the end. *)
Record field := mk_field { f_out : string; f_src : list string; f_kind : string -> val -> Prop; f_done : val -> Prop }.
Definition has (x : vdict) (f : field) : Prop :=
  (exists k u, In (k, u) x /\ marked k = false /\ In (fkey k) (f_src f))
  /\ forall k u, In (k, u) x -> marked k = false -> In (fkey k) (f_src f) -> normalize_key k = fkey k /\ f_kind f (fkey k) u.
Definition carried (f : field) : Prop :=
  forall m k u new, marked k = false -> normalize_key k = fkey k -> In (fkey k) (f_src f) -> f_kind f (fkey k) u -> turns m (k, u) new ->
    vmem (f_out f) new = true /\ forall q w, In (q, w) new -> In q (f_src f) -> f_kind f q w /\ (q = f_out f -> f_done f w).
(** The keys that may occur. *)
Definition closed (ks : list string) : bool :=
  forallb (fun k => forallb (fun q => inb q ks && (fkey q =? q) && (normalize_key q =? q) && negb (marked q)) (produces k) && negb (inb k unusual)) ks.
(** A member only comes from its own keys. *)
Definition apart (ks : list string) (f : field) : bool :=
  inb (f_out f) (f_src f) && (fkey (f_out f) =? f_out f) && forallb (fun k => inb k (f_src f) || forallb (fun q => negb (inb q (f_src f))) (produces k)) ks.
Definition like (ks : list string) (fs : list field) (v : val) : Prop := exists x, v = VDict x /\ only ks x /\ Forall (has x) fs.
Definition there (fs : list field) (y : vdict) : Prop := Forall (fun f => exists w, vget (f_out f) y = Some w /\ f_done f w) fs.

Lemma like_kept ks fs m x y : closed ks = true -> Forall carried fs -> forallb (apart ks) fs = true -> like ks fs (VDict x) -> nz m x = Ok y ->
  like ks fs (VDict y) /\ there fs y /\ only ks y /\ fixed y.
Proof.
  intros C CA AP (x' & EX & O & H) N. injection EX as <-. destruct m as [|m]; [discriminate N|].
  assert (CL : forall k, In k ks -> (forall q, In q (produces k) -> In q ks /\ fkey q = q /\ normalize_key q = q /\ marked q = false) /\ ~ In k unusual).
  { intros k I. unfold closed in C. rewrite forallb_forall in C. specialize (C k I). apply andb_true_iff in C as [C1 C2]. split.
    - intros q J. rewrite forallb_forall in C1. specialize (C1 q J). rewrite !andb_true_iff, !String.eqb_eq, negb_true_iff in C1. destruct C1 as (((A & B) & D) & E). apply inb_in in A. now repeat split.
    - intros J. apply inb_in in J. rewrite J in C2. discriminate C2. }
  assert (L : lacks unusual x). { intros k u I. destruct (O k u I) as [M|K]; [now left | right; exact (proj2 (CL _ K))]. }
  destruct (runs_of m x y L N) as [RF RT RK].
  assert (FX : forall q w, In (q, w) y -> In q ks /\ fkey q = q /\ normalize_key q = q /\ marked q = false).
  { intros q w I. destruct (RF q w I) as (k & u & new & I2 & M & T & J). destruct (O k u I2) as [?|K]; [congruence|]. apply (proj1 (CL _ K)). exact (turns_from _ _ _ _ _ _ T J). }
  assert (OY : only ks y). { intros q w I. right. destruct (FX q w I) as (A & B & _). now rewrite B. }
  assert (HY : forall f, In f fs -> (forall q w, In (q, w) y -> In q (f_src f) -> f_kind f q w /\ (q = f_out f -> f_done f w)) /\ vmem (f_out f) y = true /\ In (f_out f) (f_src f)).
  { intros f IF. rewrite Forall_forall in CA, H. specialize (CA f IF). specialize (H f IF). rewrite forallb_forall in AP. specialize (AP f IF). unfold apart in AP.
    rewrite !andb_true_iff, String.eqb_eq in AP. destruct AP as ((A1 & A2) & A3). apply inb_in in A1. rewrite forallb_forall in A3. destruct H as [(k & u & I & M & S) HA]. split; [|split; [|exact A1]].
    - intros q w J Q. destruct (RF q w J) as (k' & u' & new & I2 & M2 & T & J2). destruct (O k' u' I2) as [?|K]; [congruence|]. pose proof (turns_from _ _ _ _ _ _ T J2) as P.
      specialize (A3 _ K). apply orb_true_iff in A3 as [A3|A3].
      + apply inb_in in A3. destruct (HA k' u' I2 M2 A3) as [E F]. exact (proj2 (CA m k' u' new M2 E A3 F T) q w J2 Q).
      + rewrite forallb_forall in A3. specialize (A3 q P). apply inb_in in Q. rewrite Q in A3. discriminate A3.
    - apply RK.
      + destruct (RT k u I M) as [new T]. exists k, u, new. repeat (split; [assumption|]). destruct (HA k u I M S) as [E F]. exact (proj1 (CA m k u new M E S F T)).
      + intros k' u' new I2 M2 E2 T. assert (S2 : In (fkey k') (f_src f)) by (now rewrite E2). destruct (HA k' u' I2 M2 S2) as [E F]. exact (proj1 (CA m k' u' new M2 E S2 F T)). }
  split; [|split; [|split; [exact OY|]]].
  - exists y. split; [reflexivity|]. split; [exact OY|]. apply Forall_forall. intros f IF. destruct (HY f IF) as (A & B & D). split.
    + apply vmem_in in B as [v B]. exists (f_out f), v. split; [exact B|]. destruct (FX _ _ B) as (_ & E1 & _ & E2). split; [exact E2 | now rewrite E1].
    + intros q w I _ S. destruct (FX _ _ I) as (_ & E1 & E2 & _). rewrite E1 in *. split; [exact E2 | exact (proj1 (A _ _ I S))].
  - apply Forall_forall. intros f IF. destruct (HY f IF) as (A & B & D). apply vmem_get in B as [w B]. exists w. split; [exact B|]. apply (A _ _ (vget_in _ _ _ B) D). reflexivity.
  - intros q w I. destruct (FX q w I) as (_ & A & _ & B). now split.
Qed.

(** ** Kinds of members *)
Lemma made_general k v : general_key k = true -> made k v = bind (unnest num k v) (fun r => Ok (match r with Some x => [(k, x)] | None => [] end)).
Proof.
  intros G. unfold general_key in G. rewrite negb_true_iff in G. cbn [existsb] in G. rewrite !orb_false_iff in G. unfold made, eventual, news, listing, describing. cbn [existsb].
  repeat match type of G with _ /\ _ => let A := fresh in destruct G as [A G] end.
  repeat match goal with E : (_ =? _)%string = false |- _ => rewrite ?E; clear E end. reflexivity.
Qed.
Lemma made_leaf k v : general_key k = true -> leaf_key k = true -> match v with VDict _ => false | _ => true end = true -> made k v = Ok [(k, v)].
Proof. intros G L V. rewrite made_general, unnest_leaf by assumption. reflexivity. Qed.
Lemma made_compact k y : general_key k = true -> dict_key k = true -> compact y = true -> made k (VDict y) = Ok [(k, VDict y)].
Proof. intros G L V. rewrite made_general, unnest_compact by assumption. reflexivity. Qed.
Lemma vmem_one k (v : val) : vmem k [(k, v)] = true.
Proof. unfold vmem, mem. cbn. now rewrite String.eqb_refl. Qed.

(** A text, number or such. *)
Definition a_scalar (q : string) (Q : val -> Prop) : field := mk_field q [q] (fun _ u => scalar_val u = true /\ Q u) (fun u => scalar_val u = true /\ Q u).
Lemma carried_scalar q (Q : val -> Prop) : general_key q = true -> leaf_key q = true ->
  (forall u w, scalar_val u = true -> Q u -> interpret num q u = Ok w -> Q w) -> carried (a_scalar q Q).
Proof.
  intros G L ST m k u new M E [S|[]] [SC F] (v & V & MA). cbn [fst snd f_src f_out f_kind a_scalar] in *. rewrite E, <- S in *. rewrite value_scalar in V by exact SC.
  pose proof (interpret_scalar num q u v SC V) as SV. rewrite made_leaf in MA by (assumption || (now destruct v)). injection MA as <-. split; [apply vmem_one|].
  intros q' w [[= <- <-]|[]] _. assert (QV : Q v) by now apply (ST u). now split.
Qed.
(** A text that is not taken for something else. *)
Definition worded (v : val) : Prop := exists s, v = VStr s /\ s <> "true" /\ s <> "false" /\ looks_float s = false.
Lemma worded_stays q u w : duration_key q = false -> time_key q = false -> worded u -> interpret num q u = Ok w -> w = u.
Proof.
  intros D T (s & -> & A & B & C). rewrite interpret_text by assumption. apply String.eqb_neq in A, B. rewrite A, B. cbn [orb]. rewrite C.
  assert (I : looks_int s = false).
  { destruct (looks_int s) eqn:I; [|reflexivity]. apply looks_int_spec, integer_number, looks_float_spec in I. congruence. }
  rewrite I. congruence.
Qed.

(** A length of time, with or without the element duration around it. *)
Definition spans (v : val) : Prop := (exists z, v = VDur z) \/ exists u, v = VDict [("duration", u)] /\ scalar_val u = true.
Definition a_span (q : string) : field := mk_field q [q] (fun _ u => spans u) (fun u => exists z, u = VDur z).
Lemma interpret_span q v w : duration_key q = true -> interpret num q v = Ok w -> exists z, w = VDur z.
Proof. unfold duration_key, interpret. intros ->. destruct (parse_duration _); [|discriminate]. intros [= <-]. eauto. Qed.
Lemma single_nz m k u y : marked k = false -> general_key (fkey k) = true -> leaf_key (fkey k) = true -> scalar_val u = true -> nz m [(k, u)] = Ok y ->
  exists v, interpret num (normalize_key k) u = Ok v /\ y = [(fkey k, v)] /\ scalar_val v = true.
Proof.
  intros M G L S N. destruct m as [|m]; [discriminate N|]. cbn [normalize foldM] in N. destruct (entry num (nz m) [] (k, u)) as [d|] eqn:E; [|discriminate N]. injection N as <-.
  destruct (interpret num (normalize_key k) u) as [v|] eqn:I.
  - rewrite (entry_value num m [] k u v M) in E by (now rewrite value_scalar). pose proof (interpret_scalar num _ _ _ S I) as SV. exists v. split; [reflexivity|]. split; [|exact SV].
    unfold finish in E. rewrite (general_not_target _ G), tidy_general, unnest_leaf in E by (assumption || (now destruct v)). cbn [bind] in E. unfold vset in E. cbn [set] in E. rewrite String.eqb_refl in E. congruence.
  - exfalso. unfold entry in E. unfold marked in M. rewrite M in E. cbv zeta in E. destruct u; try discriminate S; rewrite I in E; discriminate E.
Qed.
Lemma carried_span q : general_key q = true -> leaf_key q = true -> carried (a_span q).
Proof.
  intros G L m k u new M E [S|[]] F (v & V & MA). cbn [fst snd f_src f_out f_kind a_span] in *. rewrite E, <- S in *.
  assert (X : exists z, new = [(q, VDur z)]).
  { destruct F as [[z ->]|(t & -> & ST)].
    - cbn [value_of] in V. assert (exists z', v = VDur z') as [z' ->].
      { destruct (duration_key q) eqn:D; [exact (interpret_span q _ _ D V)|]. rewrite interpret_done in V by (reflexivity || assumption). injection V as <-. eauto. }
      rewrite made_leaf in MA by (assumption || reflexivity). injection MA as <-. eauto.
    - cbn [value_of] in V. destruct (nz m [("duration", t)]) as [y|] eqn:N; [|discriminate V]. injection V as <-.
      destruct (single_nz m "duration" t y eq_refl eq_refl eq_refl ST N) as (d & I & -> & _). destruct (interpret_span _ _ _ (eq_refl : duration_key (normalize_key "duration") = true) I) as [z ->].
      rewrite made_general in MA by assumption. unfold unnest in MA. change (fkey "duration") with "duration" in MA. change (vmem "duration" [("duration", VDur z)] && Nat.eqb (length [("duration", VDur z)]) 1) with true in MA.
      cbv iota in MA. injection MA as <-. eauto. }
  destruct X as [z ->]. split; [apply vmem_one|]. intros q' w [[= <- <-]|[]] _. cbn [f_done a_span]. split; [left; now exists z | intros _; now exists z].
Qed.

(** A time, with or without the element date-time around it. *)
Definition timed (v : val) : Prop := (exists t, v = VTime t) \/ exists s, v = VDict [("date-time", VStr s)] /\ forall r, parse_datetime s = Ok r -> exists t, r = Parsed t.
Definition a_time (q : string) : field := mk_field q [q] (fun _ u => timed u) (fun u => exists t, u = VTime t).
Lemma carried_time q : general_key q = true -> leaf_key q = true -> duration_key q = false ->
  existsb (String.eqb q) ["signal_payload"; "current_value"; "report_payload"; "test_event"; "date_time"; "duration"] = false -> butlast q <> "date_time" -> carried (a_time q).
Proof.
  intros G L D K BL m k u new M E [S|[]] F (v & V & MA). cbn [fst snd f_src f_out f_kind a_time] in *. rewrite E, <- S in *.
  assert (X : exists t, new = [(q, VTime t)]).
  { destruct F as [[t ->]|(s & -> & P)].
    - cbn [value_of] in V. rewrite interpret_done in V by (reflexivity || assumption). injection V as <-. rewrite made_leaf in MA by (assumption || reflexivity). injection MA as <-. eauto.
    - cbn [value_of] in V. destruct (nz m [("date-time", VStr s)]) as [y|] eqn:N; [|discriminate V]. injection V as <-.
      destruct (single_nz m "date-time" (VStr s) y eq_refl eq_refl eq_refl eq_refl N) as (d & I & -> & _). change (normalize_key "date-time") with "date_time" in I. change (fkey "date-time") with "date_time" in MA.
      unfold interpret in I. change (existsb _ _) with false in I. cbv iota in I. change (contains "date_time" "date_time" || ("date_time" =? "dtstart")) with true in I. cbv iota in I.
      destruct (parse_datetime s) as [r|] eqn:PD; [|discriminate I]. destruct (P r eq_refl) as [t ->]. cbn [bind] in I. injection I as <-.
      rewrite made_general in MA by assumption. unfold unnest in MA. cbn [existsb] in K. rewrite !orb_false_iff in K. destruct K as (K1 & K2 & K3 & K4 & K5 & K6 & _).
      change (vmem "duration" [("date_time", VTime t)]) with false in MA. cbn [andb] in MA.
      assert (V1 : vmem q [("date_time", VTime t)] = false) by (unfold vmem, mem; cbn; now rewrite K5).
      assert (V2 : vmem (butlast q) [("date_time", VTime t)] = false) by (apply String.eqb_neq in BL; unfold vmem, mem; cbn; now rewrite BL).
      rewrite V1, V2 in MA. cbn [andb existsb] in MA. rewrite K1, K2, K3, K4 in MA. cbn [orb] in MA. change (vmem "text" [("date_time", VTime t)]) with false in MA.
      change (vmem "date_time" [("date_time", VTime t)] && Nat.eqb (length [("date_time", VTime t)]) 1) with true in MA. cbn [andb] in MA. cbv iota in MA. injection MA as <-. eauto. }
  destruct X as [t ->]. split; [apply vmem_one|]. intros q' w [[= <- <-]|[]] _. cbn [f_done a_time]. split; [left; now exists t | intros _; now exists t].
Qed.

(** A dict that stays one. *)
Definition steady (R : val -> Prop) : Prop := (forall v, R v -> exists x, v = VDict x) /\ forall m x y, R (VDict x) -> nz m x = Ok y -> R (VDict y).
Definition becomes (R D : val -> Prop) : Prop := forall m x y, R (VDict x) -> nz m x = Ok y -> D (VDict y).
Definition a_dict (q : string) (R D : val -> Prop) : field := mk_field q [q] (fun _ u => R u) D.
Lemma carried_dict q (R D : val -> Prop) : general_key q = true \/ q = "event" /\ (forall x, R (VDict x) -> fixed x -> vmem "event" x = false) -> dict_key q = true -> steady R -> becomes R D ->
  (forall m x y, R (VDict x) -> nz m x = Ok y -> compact y = true /\ fixed y) -> carried (a_dict q R D).
Proof.
  intros G D0 [S1 S2] BD C m k u new M E [S|[]] F (v & V & MA). cbn [fst snd f_src f_out f_kind f_done a_dict] in *. rewrite E, <- S in *.
  destruct (S1 u F) as [x ->]. cbn [value_of] in V. destruct (nz m x) as [y|] eqn:N; [|discriminate V]. injection V as <-. pose proof (S2 m x y F N) as F'. destruct (C m x y F N) as [CO FX].
  assert (X : new = [(q, VDict y)]).
  { destruct G as [G|[-> G]]; [rewrite made_compact in MA by assumption; congruence|]. unfold made, eventual in MA. rewrite (G y F' FX) in MA. cbn [andb] in MA. change (("event" =? "event") && false) with false in MA. cbv iota in MA.
    unfold news in MA. change ("event" =? "target")%string with false in MA. change (listing "event") with false in MA. change (describing "event") with false in MA.
    change ("event" =? "qualified_event_id")%string with false in MA. cbn [andb] in MA. cbv iota in MA. rewrite unnest_compact in MA by assumption. cbn [bind] in MA. congruence. }
  subst new. split; [apply vmem_one|]. intros q' w [[= <- <-]|[]] _. split; [exact F'|]. intros _. exact (BD m x y F N).
Qed.
Lemma steady_like ks fs : closed ks = true -> Forall carried fs -> forallb (apart ks) fs = true -> steady (like ks fs).
Proof.
  intros C CA AP. split.
  - intros v (x & -> & _). eauto.
  - intros m x y H N. exact (proj1 (like_kept ks fs m x y C CA AP H N)).
Qed.
(** What can be read in the end. *)
Definition reads (ks : list string) (fs : list field) (v : val) : Prop := exists y, v = VDict y /\ there fs y /\ only ks y /\ fixed y.
Lemma becomes_reads ks fs : closed ks = true -> Forall carried fs -> forallb (apart ks) fs = true -> becomes (like ks fs) (reads ks fs).
Proof. intros C CA AP m x y H N. destruct (like_kept ks fs m x y C CA AP H N) as (_ & A & B & E). now exists y. Qed.
Definition settled (ks : list string) (fs : list field) (v : val) : Prop := like ks fs v /\ reads ks fs v.
Lemma becomes_settled ks fs : closed ks = true -> Forall carried fs -> forallb (apart ks) fs = true -> becomes (like ks fs) (settled ks fs).
Proof. intros C CA AP m x y H N. split; [exact (proj1 (like_kept ks fs m x y C CA AP H N)) | exact (becomes_reads ks fs C CA AP m x y H N)]. Qed.
Lemma like_compact ks fs m x y a b : closed ks = true -> Forall carried fs -> forallb (apart ks) fs = true -> In a fs -> In b fs -> f_out a <> f_out b -> inb "properties" ks = false ->
  like ks fs (VDict x) -> nz m x = Ok y -> compact y = true /\ fixed y.
Proof.
  intros C CA AP IA IB NE NP H N. destruct (like_kept ks fs m x y C CA AP H N) as (_ & T & O & FX). split; [|exact FX]. unfold there in T. rewrite Forall_forall in T.
  destruct (T a IA) as (v & VA & _). destruct (T b IB) as (w & VB & _). apply vget_in in VA, VB. unfold compact. apply andb_true_iff. split; [apply Nat.leb_le; exact (two_long y _ _ v w NE VA VB)|].
  apply orb_true_iff. right. apply negb_true_iff. destruct (vmem "properties" y) eqn:P; [|reflexivity]. apply vmem_in in P as [p P]. destruct (FX _ _ P) as [F1 F2].
  destruct (O _ _ P) as [?|K]; [congruence|]. rewrite F1 in K. apply inb_in in K. congruence.
Qed.

(** A list of such dicts, or one of them. *)
Definition all_items (R : val -> Prop) (u : val) : Prop := items_of u <> [] /\ Forall R (items_of u).
Lemma items_valued R m q u v : steady R -> all_items R u -> value_of num m q u = Ok v ->
  all_items R v /\ ((exists l, u = VList l) -> exists l, v = VList l) /\ ((forall l, u <> VList l) -> exists x y, u = VDict x /\ v = VDict y /\ nz m x = Ok y).
Proof.
  intros [S1 S2] [NE F] V. destruct u as [| | | | | | |l|x]; try (exfalso; cbn [items_of] in F; destruct (S1 _ (Forall_inv F)) as [? EQ]; discriminate EQ).
  - cbn [items_of] in *. cbn [value_of] in V. destruct (mapM _ l) as [l'|] eqn:ML; [|discriminate V]. injection V as <-. cbn [items_of].
    assert (G : length l' = length l /\ Forall R l').
    { revert l' ML F. clear NE. induction l as [|i l IH]; intros l' ML F; cbn [mapM] in ML.
      - injection ML as <-. split; [reflexivity | constructor].
      - pose proof (Forall_inv F) as H. pose proof (Forall_inv_tail F) as F'. destruct (S1 _ H) as [x ->]. destruct (nz m x) as [y|] eqn:N1; [|discriminate ML]. cbn [bind] in ML. destruct (nz m y) as [z|] eqn:N2; [|discriminate ML]. cbn [bind] in ML.
        destruct (mapM _ l) as [r|] eqn:MR; [|discriminate ML]. cbn [bind] in ML. injection ML as <-. destruct (IH r eq_refl F') as [A B]. split; [cbn; now rewrite A|].
        constructor; [|exact B]. exact (S2 m y z (S2 m x y H N1) N2). }
    destruct G as [LE FR]. split; [|split].
    + split; [|exact FR]. cbn [items_of]. destruct l; [now contradiction NE|]. destruct l'; [discriminate LE | discriminate].
    + eauto.
    + intros C. now contradiction (C l).
  - cbn [items_of] in *. cbn [value_of] in V. destruct (nz m x) as [y|] eqn:N; [|discriminate V]. injection V as <-. pose proof (Forall_inv F) as H. split; [|split].
    + split; [discriminate|]. cbn [items_of]. constructor; [exact (S2 m x y H N) | constructor].
    + intros [l [=]].
    + intros _. now exists x, y.
Qed.
(** The elements of lists are normalized. *)
Lemma items_normed (R D : val -> Prop) m q u v : steady R -> becomes R D -> all_items R u -> value_of num m q u = Ok v -> Forall D (items_of v).
Proof.
  intros ST BD AI VV. destruct (items_valued R m q u v ST AI VV) as ((NE & _) & LL & LN). destruct ST as [S1 S2]. destruct AI as [_ F].
  destruct u as [| | | | | | |l|x]; try (exfalso; cbn [items_of] in F; destruct (S1 _ (Forall_inv F)) as [? EQ]; discriminate EQ).
  - cbn [items_of value_of] in *. destruct (mapM _ l) as [l'|] eqn:ML; [|discriminate VV]. injection VV as <-. cbn [items_of]. clear NE LL LN. revert l' ML F. induction l as [|i l IH]; intros l' ML F; cbn [mapM] in ML.
    + injection ML as <-. constructor.
    + pose proof (Forall_inv F) as H. pose proof (Forall_inv_tail F) as F'. destruct (S1 _ H) as [x ->]. destruct (nz m x) as [y|] eqn:N1; [|discriminate ML]. cbn [bind] in ML. destruct (nz m y) as [z|] eqn:N2; [|discriminate ML]. cbn [bind] in ML.
      destruct (mapM _ l) as [r|] eqn:MR; [|discriminate ML]. cbn [bind] in ML. injection ML as <-. constructor; [|exact (IH r eq_refl F')]. exact (BD m y z (S2 m x y H N1) N2).
  - destruct (LN ltac:(discriminate)) as (x' & y & [= <-] & -> & N). cbn [items_of] in *. constructor; [|constructor]. exact (BD m x y (Forall_inv F) N).
Qed.
Definition listed (D : val -> Prop) (u : val) : Prop := exists l, u = VList l /\ l <> [] /\ Forall D l.
Definition a_list (k : string) (R D : val -> Prop) : field :=
  mk_field (k ++ "s") [k; k ++ "s"] (fun q u => all_items R u /\ (q = k ++ "s" -> exists l, u = VList l)) (listed D).
Definition remeasured (R : val -> Prop) : Prop := forall v r, R v -> measured v = Ok (Some r) -> R r.
Lemma measured_items R l l' : remeasured R -> Forall R l -> measured_all l = Ok l' -> Forall R l' /\ length l' = length l.
Proof.
  intros RM. revert l'. induction l as [|i l IH]; intros l' F M; cbn [measured_all] in M; [injection M as <-; now split|]. pose proof (Forall_inv F) as H. pose proof (Forall_inv_tail F) as F'.
  destruct (measured i) as [[r|]|] eqn:E; cbn [bind] in M; [| |discriminate M].
  - destruct (measured_all l) as [rs|] eqn:E2; [|discriminate M]. cbn [bind] in M. injection M as <-. destruct (IH rs F' eq_refl) as [A B]. split; [constructor; [exact (RM _ _ H E) | exact A] | cbn; now rewrite B].
  - injection M as <-. now split.
Qed.
Lemma carried_list k (R D : val -> Prop) : listing k = true \/ describing k = true /\ remeasured R /\ remeasured D -> steady R -> becomes R D -> carried (a_list k R D).
Proof.
  intros K ST BD m key u new M E S [AI F] (v & V & MA). cbn [fst snd f_src f_out f_kind f_done a_list] in *. rewrite E in V.
  destruct (items_valued R m (fkey key) u v ST AI V) as ([NE FR] & LL & _). pose proof (items_normed R D m (fkey key) u v ST BD AI V) as FD.
  assert (GL : general_key (k ++ "s") = true /\ leaf_key (k ++ "s") = true /\ (k =? "target") = false /\ (k =? "event") = false).
  { destruct K as [K|[K _]]; apply existsb_in in K; repeat (destruct K as [<-|K]; [repeat split|]); destruct K. }
  destruct GL as (G & L & KT & KE).
  assert (X : exists l, new = [(k ++ "s", VList l)] /\ l <> [] /\ Forall R l /\ Forall D l).
  { destruct S as [S|[S|[]]].
    - rewrite <- S in MA. unfold made, eventual in MA. rewrite KE in MA. cbn [andb] in MA. unfold news in MA. rewrite KT in MA. destruct (listing k) eqn:LK; [injection MA as <-; exists (items_of v); now repeat split|].
      destruct K as [K|(K & RM & RD)]; [discriminate K|]. rewrite K in MA. destruct (measured_all (items_of v)) as [l'|] eqn:ME; [|discriminate MA]. cbn [bind] in MA. injection MA as <-.
      destruct (measured_items R _ _ RM FR ME) as [A B]. destruct (measured_items D _ _ RD FD ME) as [A' _]. exists l'. split; [reflexivity|]. split; [|now split]. intros ->. destruct (items_of v); [now apply NE | discriminate B].
    - rewrite <- S in MA. destruct (LL (F (eq_sym S))) as [l ->]. rewrite made_leaf in MA by (assumption || reflexivity). injection MA as <-. exists l. now repeat split. }
  destruct X as (l & -> & NL & FL & DL). split; [apply vmem_one|]. intros q w [[= <- <-]|[]] _. split; [split; [now split | eauto]|]. intros _. now exists l.
Qed.
End Members.
