(** Dicts on which normalize_dict does not raise: an invariant that its result
    satisfies again (elements of lists are normalized twice). *)
From Coq Require Import ZArith String Ascii List Bool Lia Arith.
From Verif.Base Require Import Result Dict PyStr ListExtra.
From Verif.Model Require Import Duration DateTime Text Normalize Xml.
From Verif.Proofs Require Import NormalizeProofs.
Import ListNotations.
Local Open Scope string_scope.

(** ** Changing dicts *)
Lemma vset_in q w k v (d : vdict) : In (q, w) (vset k v d) -> (q, w) = (k, v) \/ In (q, w) d.
Proof.
  unfold vset. induction d as [|[k2 v2] d IH]; cbn [set]; [intros [E|[]]; left; congruence|].
  destruct (String.eqb k k2) eqn:E; intros [I|I].
  - apply String.eqb_eq in E; subst. left. congruence.
  - right. now right.
  - right. now left.
  - destruct (IH I); [now left | right; now right].
Qed.
Lemma vdel_in q w k (d : vdict) : In (q, w) (vdel k d) -> In (q, w) d.
Proof.
  unfold vdel. induction d as [|[k2 v2] d IH]; cbn [del]; [tauto|].
  destruct (String.eqb k k2); [now right | intros [I|I]; [now left | right; now apply IH]].
Qed.
Lemma vdel_vset k v (d : vdict) : vdel k (vset k v d) = vdel k d.
Proof.
  unfold vdel, vset. induction d as [|[k2 v2] d IH]; cbn [set del]; [now rewrite String.eqb_refl|].
  destruct (String.eqb k k2) eqn:E; cbn [del]; rewrite E; [reflexivity | now rewrite IH].
Qed.
Lemma vset_vset k v w (d : vdict) : vset k w (vset k v d) = vset k w d.
Proof.
  unfold vset. induction d as [|[k2 v2] d IH]; cbn [set]; [now rewrite String.eqb_refl|].
  destruct (String.eqb k k2) eqn:E; cbn [set]; rewrite E; [reflexivity | now rewrite IH].
Qed.
Lemma vmem_in k (d : vdict) : vmem k d = true <-> exists v, In (k, v) d.
Proof.
  unfold vmem. rewrite (mem_in String.eqb String.eqb_eq). unfold keys. rewrite in_map_iff. split.
  - intros ([k' v] & E & I). cbn in E; subst. now exists v.
  - intros [v I]. now exists (k, v).
Qed.
Lemma vmem_vset q k v (d : vdict) : vmem q (vset k v d) = String.eqb q k || vmem q d.
Proof. apply (mem_set String.eqb String.eqb_eq). Qed.
Lemma vmem_vdel q k (d : vdict) : q <> k -> vmem q (vdel k d) = vmem q d.
Proof. intros N. unfold vmem, mem, vdel. now rewrite (get_del_other String.eqb String.eqb_eq). Qed.
Lemma vget_in k v (d : vdict) : vget k d = Some v -> In (k, v) d.
Proof. apply (get_in String.eqb String.eqb_eq). Qed.
Lemma vmem_get k (d : vdict) : vmem k d = true -> exists v, vget k d = Some v.
Proof. unfold vmem, mem, vget. destruct (get _ k d); [eauto | discriminate]. Qed.
Lemma vmem_none k (d : vdict) : vmem k d = false -> vget k d = None.
Proof. unfold vmem, mem, vget. now destruct (get _ k d). Qed.

(** ** What one round makes *)
Section Calm.
Context (num : numbers).
Local Notation nz := (normalize num).

Definition listing (k : string) : bool := existsb (String.eqb k) ["report_request"; "report"; "specifier_payload"].
Definition describing (k : string) : bool := existsb (String.eqb k) ["report_description"; "event_signal"].
Definition items_of (v : val) : list val := match v with VList l => l | x => [x] end.
Definition news (k : string) (v : val) : result vdict :=
  if String.eqb k "target" then bind (new_targets v) (fun ts => Ok [("targets", VList (map (fun kv => VDict [kv]) ts)); ("targets_by_type", VDict (grouped ts))])
  else if listing k then Ok [(k ++ "s", VList (items_of v))]
  else if describing k then bind (measured_all (items_of v)) (fun l => Ok [(k ++ "s", VList l)])
  else if String.eqb k "qualified_event_id" && match v with VDict _ => true | _ => false end then
    match v with
    | VDict q => match vget "event_id" q, vget "modification_number" q with
                 | Some i, Some n => Ok [("event_id", i); ("modification_number", n)]
                 | _, _ => Raise KeyError
                 end
    | _ => Ok []
    end
  else bind (unnest num k v) (fun r => Ok (match r with Some x => [(k, x)] | None => [] end)).
Definition ordinary (k : string) (v : val) : bool :=
  negb (existsb (String.eqb k) ["pending_reports"; "request_event"; "created_event"])
  && (negb (String.eqb k "event") || match v with VDict p => negb (vmem "event" p) | VList _ => false | _ => true end).

Record effect (k : string) (new d d' : vdict) : Prop := mk_effect {
  ef_in : forall q w, In (q, w) d' -> In (q, w) new \/ In (q, w) d;
  ef_new : forall q, vmem q new = true -> vmem q d' = true;
  ef_old : forall q, q <> k -> vmem q d = true -> vmem q d' = true }.

Lemma effect_set k x d : effect k [(k, x)] d (vset k x d).
Proof.
  split.
  - intros q w I. apply vset_in in I as [E|I]; [left; left; congruence | now right].
  - intros q. rewrite vmem_vset. unfold vmem, mem. cbn. destruct (String.eqb q k); [reflexivity | discriminate].
  - intros q N M. now rewrite vmem_vset, M, orb_true_r.
Qed.
Lemma effect_del k d : effect k [] d (vdel k d).
Proof. split; [intros q w I; right; now apply vdel_in in I | discriminate | intros q N M; now rewrite vmem_vdel]. Qed.
Lemma effect_then k new d d' q w : effect k new d d' -> effect k (new ++ [(q, w)])%list d (vset q w d').
Proof.
  intros [A B C]. split.
  - intros q2 w2 I. apply vset_in in I as [E|I]; [left; apply in_or_app; right; now left|].
    destruct (A q2 w2 I); [left; apply in_or_app; now left | now right].
  - intros q2. rewrite !vmem_in. intros [v I]. apply in_app_or in I as [I|[E|[]]].
    + apply vmem_in. rewrite vmem_vset. rewrite (B q2) by (apply vmem_in; eauto). apply orb_true_r.
    + injection E as <- <-. apply vmem_in. rewrite vmem_vset, String.eqb_refl. reflexivity.
  - intros q2 N M. rewrite vmem_vset, (C q2 N M). apply orb_true_r.
Qed.

Lemma finish_news k v d new : ordinary k v = true -> news k v = Ok new -> exists d', finish num k v d = Ok d' /\ effect k new d d'.
Proof.
  unfold ordinary, news, finish, tidy, listing, describing. cbn [existsb]. rewrite !orb_false_r. intros O N.
  apply andb_true_iff in O as [O E]. rewrite negb_true_iff, !orb_false_iff in O. destruct O as (O1 & O2 & O3).
  destruct (k =? "target") eqn:T.
  { apply String.eqb_eq in T; subst k. destruct (new_targets v) as [ts|]; [|discriminate N]. injection N as <-.
    eexists. split; [reflexivity|].
    apply (effect_then "target" [_] d _ "targets_by_type"). apply (effect_then "target" [] d _ "targets"). apply effect_del. }
  rewrite O1, O2, O3. cbn [orb andb].
  assert (E1 : (k =? "event") && match v with VList _ => true | _ => false end = false).
  { destruct (k =? "event"); [|reflexivity]. now destruct v. }
  assert (E2 : (k =? "event") && match v with VDict p => vmem "event" p | _ => false end = false).
  { destruct (k =? "event"); [|reflexivity]. destruct v; try reflexivity. cbn in E. destruct (vmem "event" d0); [discriminate E | reflexivity]. }
  rewrite E1, E2.
  destruct ((k =? "report_request") || ((k =? "report") || (k =? "specifier_payload"))).
  { injection N as <-. rewrite vdel_vset. replace (match v with VList l => VList l | x => VList [x] end) with (VList (items_of v)) by (now destruct v).
    eexists. split; [reflexivity|]. apply (effect_then k [] d _ (k ++ "s")). apply effect_del. }
  destruct ((k =? "report_description") || (k =? "event_signal")).
  { unfold items_of in N. destruct (measured_all _) as [l|]; [|discriminate N]. injection N as <-. cbn [bind]. rewrite vdel_vset. eexists. split; [reflexivity|].
    apply (effect_then k [] d _ (k ++ "s")). apply effect_del. }
  destruct ((k =? "qualified_event_id") && match v with VDict _ => true | _ => false end) eqn:Q.
  { destruct v as [| | | | | | | |q]; try (rewrite andb_false_r in Q; discriminate Q).
    destruct (vget "event_id" q) as [i|]; [|discriminate N]. destruct (vget "modification_number" q) as [n|]; [|discriminate N].
    injection N as <-. rewrite vdel_vset. eexists. split; [reflexivity|].
    apply (effect_then k [_] d _ "modification_number"). apply (effect_then k [] d _ "event_id"). apply effect_del. }
  destruct (unnest num k v) as [r|]; [|discriminate N]. injection N as <-. cbn [bind].
  destruct r as [x|]; eexists; (split; [reflexivity|]); [rewrite vset_vset; apply effect_set | rewrite vdel_vset; apply effect_del].
Qed.

(** ** A run of the loop *)
Definition round (n : nat) (kv : string * val) (new : vdict) : Prop :=
  exists v, value_of num n (normalize_key (fst kv)) (snd kv) = Ok v /\ ordinary (fkey (fst kv)) v = true /\ news (fkey (fst kv)) v = Ok new.
Definition marked (k : string) : bool := startswith "@" k.
Record follows (n : nat) (x y : vdict) : Prop := mk_follows {
  fo_from : forall q w, In (q, w) y -> exists kv new, In kv x /\ marked (fst kv) = false /\ round n kv new /\ In (q, w) new;
  fo_kept : forall q, (exists kv new, In kv x /\ marked (fst kv) = false /\ round n kv new /\ vmem q new = true) ->
     (forall kv new, In kv x -> marked (fst kv) = false -> fkey (fst kv) = q -> round n kv new -> vmem q new = true) -> vmem q y = true }.

Lemma run_news n x : (forall kv, In kv x -> marked (fst kv) = true \/ exists new, round n kv new) ->
  exists y, nz (S n) x = Ok y /\ follows n x y.
Proof.
  intros H. cbn [normalize].
  enough (G : forall l d, (forall kv, In kv l -> marked (fst kv) = true \/ exists new, round n kv new) ->
    exists y, foldM (entry num (nz n)) l d = Ok y
      /\ (forall q w, In (q, w) y -> In (q, w) d \/ exists kv new, In kv l /\ marked (fst kv) = false /\ round n kv new /\ In (q, w) new)
      /\ (forall q, (vmem q d = true \/ exists kv new, In kv l /\ marked (fst kv) = false /\ round n kv new /\ vmem q new = true) ->
          (forall kv new, In kv l -> marked (fst kv) = false -> fkey (fst kv) = q -> round n kv new -> vmem q new = true) -> vmem q y = true)).
  { destruct (G x [] H) as (y & E & A & B). exists y. split; [exact E|]. split.
    - intros q w I. destruct (A q w I) as [[]|?]; assumption.
    - intros q P Q. apply B; [now right | exact Q]. }
  clear x H. induction l as [|[k u] l IH]; intros d H.
  - exists d. split; [reflexivity|]. split; [now left|]. intros q [M|(? & ? & [] & _)] _. exact M.
  - destruct (H (k, u) (or_introl eq_refl)) as [M|[new (v & V & O & N)]]; cbn [fst snd] in *.
    + destruct (IH d) as (y & E & A & B); [intros; apply H; now right|]. exists y.
      cbn [foldM entry]. unfold marked in M. rewrite M. cbn [bind]. split; [exact E|]. split.
      * intros q w I. destruct (A q w I) as [?|(kv & nw & I2 & R)]; [now left | right; exists kv, nw; split; [now right | exact R]].
      * intros q P Q. apply B; [|intros kv nw I2; apply Q; now right].
        destruct P as [P|(kv & nw & [<-|I2] & F & R)]; [now left | | right; now exists kv, nw].
        unfold marked in F. cbn [fst] in F. congruence.
    + destruct (marked k) eqn:M.
      { destruct (IH d) as (y & E & A & B); [intros; apply H; now right|]. exists y.
        cbn [foldM entry]. unfold marked in M. rewrite M. cbn [bind]. split; [exact E|]. split.
        - intros q w I. destruct (A q w I) as [?|(kv & nw & I2 & R)]; [now left | right; exists kv, nw; split; [now right | exact R]].
        - intros q P Q. apply B; [|intros kv nw I2; apply Q; now right].
          destruct P as [P|(kv & nw & [<-|I2] & F & R)]; [now left | | right; now exists kv, nw].
          unfold marked in F. cbn [fst] in F. congruence. }
      destruct (finish_news (fkey k) v d new O N) as (d' & F & [A1 A2 A3]).
      destruct (IH d') as (y & E & A & B); [intros; apply H; now right|]. exists y.
      cbn [foldM]. rewrite (entry_value num n d k u v) by assumption. rewrite F. cbn [bind]. split; [exact E|]. split.
      * intros q w I. destruct (A q w I) as [I2|(kv & nw & I2 & R)].
        -- destruct (A1 q w I2); [right; exists (k, u), new; cbn; repeat split; try assumption; [now left | now exists v] | now left].
        -- right; exists kv, nw; split; [now right | exact R].
      * intros q P Q.
        assert (SAME : forall nw, round n (k, u) nw -> nw = new).
        { intros nw (v2 & V2 & _ & N2). cbn [fst snd] in *. rewrite V in V2. injection V2 as <-. congruence. }
        apply B; [|intros kv nw I2; apply Q; now right].
        destruct (string_dec q (fkey k)) as [->|D].
        -- left. apply A2. apply (Q (k, u) new); cbn; try reflexivity; [now left | assumption | now exists v].
        -- destruct P as [P|(kv & nw & [<-|I2] & F2 & R & M2)].
           ++ left. now apply A3.
           ++ left. apply A2. rewrite <- (SAME nw R). exact M2.
           ++ right. now exists kv, nw.
Qed.

(** ** The invariant *)
Variable known : list string.            (* the names that may occur *)
Definition inb (k : string) (l : list string) : bool := existsb (String.eqb k) l.
Definition derived : list string :=
  ["targets"; "targets_by_type"; "report_requests"; "reports"; "specifier_payloads"; "report_descriptions"; "event_signals"; "event_id"; "modification_number"].
Definition renamed : list string := ["measurement"; "name"; "description"; "unit"; "scale"; "pulse_factor"; "value"].
Definition target_keys : list string :=
  ["aggregated_pnode"; "end_device_asset"; "meter_asset"; "pnode"; "service_area"; "service_delivery_point"; "service_location"; "transport_interface";
   "group_id"; "group_name"; "resource_id"; "ven_id"; "party_id"].
Definition special_keys : list string :=
  ["duration"; "startafter"; "max_period"; "min_period"; "target"; "uid"; "payload_float"; "qualified_event_id"; "event_descriptor"; "event"; "targets";
   "report_description"; "event_signal"; "report_payload"].
Definition known_ok (k : string) : bool :=
  negb (marked k) && (fkey (fkey k) =? fkey k) && (normalize_key (fkey k) =? fkey k) && negb (marked (fkey k)) && inb (fkey k) known
  && negb (inb (fkey k) ["pending_reports"; "request_event"; "created_event"; "payload_int"])
  && Bool.eqb (duration_key (normalize_key k)) (duration_key (fkey k)) && Bool.eqb (time_key (normalize_key k)) (time_key (fkey k)).
Hypothesis known_all : forallb known_ok known = true.
Hypothesis known_more : forallb (fun k => inb k known && (fkey k =? k)) (derived ++ renamed) = true.

Lemma inb_in k l : inb k l = true <-> In k l.
Proof. apply existsb_in. Qed.
Record known_facts (k : string) : Prop := {
  kf_unmarked : marked k = false;
  kf_fixed : fkey (fkey k) = fkey k;
  kf_same : normalize_key (fkey k) = fkey k;
  kf_known : In (fkey k) known;
  kf_plain : inb (fkey k) ["pending_reports"; "request_event"; "created_event"; "payload_int"] = false;
  kf_duration : duration_key (normalize_key k) = duration_key (fkey k);
  kf_time : time_key (normalize_key k) = time_key (fkey k) }.
Lemma known_is k : In k known -> known_facts k.
Proof.
  intros I. pose proof (proj1 (forallb_forall _ _) known_all k I) as H. unfold known_ok in H.
  rewrite !andb_true_iff, !negb_true_iff, !String.eqb_eq in H. destruct H as (((((((A & B) & C) & D) & E) & F) & G) & J).
  apply inb_in in E. apply Bool.eqb_prop in G. apply Bool.eqb_prop in J. now split.
Qed.
Lemma more_is k : In k (derived ++ renamed) -> In k known /\ fkey k = k.
Proof.
  intros I. pose proof (proj1 (forallb_forall _ _) known_more k I) as H. cbv beta in H.
  apply andb_true_iff in H as [A B]. apply inb_in in A. now apply String.eqb_eq in B.
Qed.

(** Texts that are read under every key but those of durations. *)
Definition text_ok (v : val) : Prop :=
  match v with VStr s => (exists w, interpret num "" (VStr s) = Ok w) /\ (exists w, interpret num "dtstart" (VStr s) = Ok w) | _ => True end.
Definition dur_text (v : val) : Prop := match v with VDur _ => True | VStr s => exists z, parse_duration (DText s) = Ok z | _ => False end.
Definition float_good (v : val) : Prop := match v with VStr s => float_ok num s = true | VInt _ | VFloat _ | VBool _ => True | _ => False end.
Definition int_good (v : val) : Prop := match v with VStr s => looks_int s = true | VInt _ => True | _ => False end.

(** About dicts. *)
Definition lacks (ks : list string) (x : vdict) : Prop := forall k v, In (k, v) x -> marked k = true \/ ~ In (fkey k) ks.
Definition only (ks : list string) (x : vdict) : Prop := forall k v, In (k, v) x -> marked k = true \/ In (fkey k) ks.
Definition held (q : string) (x : vdict) : Prop := exists k v, In (k, v) x /\ marked k = false /\ fkey k = q.
Definition solid (q : string) (x : vdict) : Prop :=
  held q x /\ forall k v, In (k, v) x -> marked k = false -> fkey k = q -> scalar_val v = true.
Definition movers : list string := ["duration"; "text"; "date_time"; "properties"; "event"; "qualified_event_id"; "report_payload"; "report_payloa"].
Definition both (a b : string) (x : vdict) : Prop := solid a x /\ solid b x /\ lacks movers x.
Definition ids (x : vdict) : Prop := both "event_id" "modification_number" x.
Definition item_like (x : vdict) : Prop := both "item_description" "item_units" x.
Definition described (x : vdict) : Prop :=
  forall k v, In (k, v) x -> marked k = false -> In (fkey k) measurement_namespaces -> exists item, v = VDict item /\ item_like item.
Definition inner (x : vdict) : Prop :=
  lacks movers x /\ held "event_descriptor" x /\ (held "target" x \/ held "targets" x).
Definition eventful (x : vdict) : Prop := held "event" x /\ solid "response_required" x /\ lacks ["qualified_event_id"] x.

Record extra (n : nat) (k : string) (v : val) : Prop := mk_extra {
  x_duration : duration_key k = true -> dur_text v \/ exists w, v = VDict [("duration", w)] /\ dur_text w;
  x_target : k = "target" -> (v = VNone /\ n <> O) \/ exists x, v = VDict x /\ only target_keys x;
  x_uid : k = "uid" -> match v with VDict x => exists w, x = [("text", w)] /\ int_good w | _ => True end;
  x_float : k = "payload_float" -> exists w, v = VDict [("value", w)] /\ float_good w;
  x_qualified : k = "qualified_event_id" -> match v with VDict x => ids x | _ => True end;
  x_descriptor : k = "event_descriptor" -> exists x, v = VDict x /\ ids x;
  x_event : k = "event" -> exists x, v = VDict x /\ inner x;
  x_targets : k = "targets" -> exists l, v = VList l;
  x_described : describing k = true -> forall i, In i (items_of v) -> exists x, i = VDict x /\ described x;
  x_payload : k = "report_payload" -> match v with VDict x => lacks movers x | VList _ => True | _ => False end }.
Fixpoint calm (n : nat) (v : val) : Prop :=
  let single v := match v with
                  | VDict x => match n with
                               | O => False
                               | S m => forall k u, In (k, u) x -> marked k = true \/ (In k known /\ calm m u /\ extra m (fkey k) u)
                               end
                  | VList _ => False
                  | v => text_ok v
                  end in
  match v with VList l => forall i, In i l -> single i | v => single v end.
Definition flat (v : val) : bool := match v with VList _ => false | _ => true end.

Lemma extra_none n k v : inb k special_keys = false -> extra n k v.
Proof.
  intros N. assert (E : forall q, In q special_keys -> k <> q).
  { intros q I ->. apply inb_in in I. congruence. }
  split.
  - intros D. apply existsb_in in D. exfalso. apply (E k); [|reflexivity]. cbn in D |- *. tauto.
  - intros K. exfalso. apply (E "target"); [cbn; tauto | exact K].
  - intros K. exfalso. apply (E "uid"); [cbn; tauto | exact K].
  - intros K. exfalso. apply (E "payload_float"); [cbn; tauto | exact K].
  - intros K. exfalso. apply (E "qualified_event_id"); [cbn; tauto | exact K].
  - intros K. exfalso. apply (E "event_descriptor"); [cbn; tauto | exact K].
  - intros K. exfalso. apply (E "event"); [cbn; tauto | exact K].
  - intros K. exfalso. apply (E "targets"); [cbn; tauto | exact K].
  - intros K. apply existsb_in in K. exfalso. apply (E k); [|reflexivity]. cbn in K |- *. tauto.
  - intros K. exfalso. apply (E "report_payload"); [cbn; tauto | exact K].
Qed.
Lemma extra_deeper n k v : extra n k v -> extra (S n) k v.
Proof. intros [A B C D E F G H I J]. split; try assumption. intros K. destruct (B K) as [[V _]|X]; [left; now split | now right]. Qed.
Lemma calm_single n v : flat v = true -> calm n v = match v with
                  | VDict x => match n with
                               | O => False
                               | S m => forall k u, In (k, u) x -> marked k = true \/ (In k known /\ calm m u /\ extra m (fkey k) u)
                               end
                  | VList _ => False
                  | v => text_ok v
                  end.
Proof. intros F. destruct n, v; try discriminate F; reflexivity. Qed.
Lemma calm_list n l : calm n (VList l) <-> forall i, In i l -> flat i = true /\ calm n i.
Proof.
  split.
  - intros H i I. destruct n; cbn [calm] in H; specialize (H i I); destruct i; try contradiction; split; try reflexivity; exact H.
  - intros H. destruct n; cbn [calm]; intros i I; destruct (H i I) as [F C]; destruct i; try discriminate F; exact C.
Qed.
Lemma calm_scalar n v : scalar_val v = true -> calm n v <-> text_ok v.
Proof. intros S. destruct n, v; try discriminate S; reflexivity. Qed.
Lemma calm_dict m x : calm (S m) (VDict x) <-> forall k u, In (k, u) x -> marked k = true \/ (In k known /\ calm m u /\ extra m (fkey k) u).
Proof. reflexivity. Qed.
Lemma calm_dict_deep n x : calm n (VDict x) -> exists m, n = S m.
Proof. destruct n; [contradiction | eauto]. Qed.
Lemma calm_deeper n : forall v, calm n v -> calm (S n) v.
Proof.
  induction n as [|n IH].
  - assert (G : forall v, flat v = true -> calm 0 v -> calm 1 v) by (intros v F C; destruct v; try discriminate F; try exact C; contradiction).
    intros v C. destruct (flat v) eqn:F; [now apply G|]. destruct v; try discriminate F.
    apply calm_list. intros i I. destruct (proj1 (calm_list 0 _) C i I). split; [assumption | now apply G].
  - assert (G : forall v, flat v = true -> calm (S n) v -> calm (S (S n)) v).
    { intros v F C. destruct v; try discriminate F; try exact C. apply calm_dict. intros k u I. destruct (proj1 (calm_dict n _) C k u I) as [M|(K & C2 & X)];
        [now left | right; split; [assumption | split; [now apply IH | now apply extra_deeper]]]. }
    intros v C. destruct (flat v) eqn:F; [now apply G|]. destruct v; try discriminate F.
    apply calm_list. intros i I. destruct (proj1 (calm_list (S n) _) C i I). split; [assumption | now apply G].
Qed.

(** ** Scalars *)
Lemma interpret_calm k v : scalar_val v = true -> text_ok v -> duration_key k = false ->
  exists w, interpret num k v = Ok w /\ scalar_val w = true /\ text_ok w.
Proof.
  intros S T D. destruct v; try discriminate S; try (eexists; split; [now apply interpret_done | split; [reflexivity | exact I]]).
  destruct T as [[w1 T1] [w2 T2]]. assert (T : text_ok (VStr s)) by (split; eauto).
  destruct (time_key k) eqn:K.
  - assert (E : interpret num k (VStr s) = interpret num "dtstart" (VStr s)).
    { unfold duration_key in D. unfold time_key in K. unfold interpret. rewrite D, K. reflexivity. }
    rewrite E, T2. exists w2. split; [reflexivity|]. unfold interpret in T2. cbn [existsb orb contains] in T2.
    change (existsb (String.eqb "dtstart") ["duration"; "startafter"; "max_period"; "min_period"]) with false in T2.
    change (contains "date_time" "dtstart" || ("dtstart" =? "dtstart")%string) with true in T2. cbv iota in T2.
    unfold parse_datetime in T2. destruct (dt_match s) as [[[[[[[y mo] d] h] mi] se] micro]|].
    + destruct (mk_datetime _ _ _ _ _ _ _ _); [|discriminate T2]. injection T2 as <-. now split.
    + injection T2 as <-. now split.
  - rewrite interpret_text by assumption. rewrite interpret_text in T1 by reflexivity. rewrite T1. exists w1. split; [reflexivity|].
    destruct ((s =? "true") || (s =? "false")); [injection T1 as <-; now split|].
    destruct (looks_int s); [injection T1 as <-; now split|].
    destruct (looks_float s); [destruct (float_ok num s); [|discriminate T1]; injection T1 as <-; now split|].
    injection T1 as <-. now split.
Qed.
Lemma interpret_float k v : scalar_val v = true -> float_good v -> duration_key k = false -> time_key k = false ->
  forall w, interpret num k v = Ok w -> float_good w.
Proof.
  intros S T D K w. destruct v; try discriminate S; try contradiction; try (rewrite interpret_done by (reflexivity || assumption); now intros [= <-]).
  rewrite interpret_text by assumption.
  destruct ((s =? "true") || (s =? "false")); [now intros [= <-]|].
  destruct (looks_int s); [now intros [= <-]|].
  destruct (looks_float s); [destruct (float_ok num s); [now intros [= <-] | discriminate]|]. now intros [= <-].
Qed.
Lemma interpret_int_good k v : scalar_val v = true -> int_good v -> duration_key k = false -> time_key k = false ->
  forall w, interpret num k v = Ok w -> int_good w.
Proof.
  intros S T D K w. destruct v; try discriminate S; try contradiction; try (rewrite interpret_done by (reflexivity || assumption); now intros [= <-]).
  cbn in T. rewrite interpret_text by assumption.
  assert (B : ((s =? "true") || (s =? "false"))%string = false).
  { apply looks_int_spec, integer_number, like_number_not_bool in T as [A B]. apply String.eqb_neq in A, B. now rewrite A, B. }
  rewrite B, T. now intros [= <-].
Qed.
Lemma interpret_duration_good k v : duration_key k = true -> dur_text v -> exists z, interpret num k v = Ok (VDur z).
Proof.
  intros D T. unfold duration_key in D. unfold interpret. rewrite D. destruct v; try contradiction.
  - destruct T as [z T]. rewrite T. now exists z.
  - now eexists.
Qed.
Lemma interpret_scalar k v w : scalar_val v = true -> interpret num k v = Ok w -> scalar_val w = true.
Proof.
  intros S. unfold interpret. destruct (existsb _ _).
  - destruct (parse_duration _); [now intros [= <-] | discriminate].
  - destruct v; try discriminate S; try (now intros [= <-]).
    destruct (_ || _); [destruct (parse_datetime s) as [[]|]; [now intros [= <-] | now intros [= <-] | discriminate]|].
    destruct (_ || _); [now intros [= <-]|]. destruct (looks_int s); [now intros [= <-]|].
    destruct (looks_float s); [destruct (float_ok num s); [now intros [= <-] | discriminate]|]. now intros [= <-].
Qed.

(** ** What normalizing a dict keeps *)
Definition fixed (y : vdict) : Prop := forall q w, In (q, w) y -> fkey q = q /\ marked q = false.
Record settles (m : nat) (x y : vdict) : Prop := mk_settles {
  se_ok : nz m x = Ok y;
  se_calm : calm m (VDict y);
  se_fixed : fixed y;
  se_only : only target_keys x -> only target_keys y;
  se_ids : ids x -> ids y;
  se_item : item_like x -> item_like y;
  se_described : described x -> described y;
  se_inner : inner x -> inner y;
  se_eventful : eventful x -> eventful y;
  se_lacks : lacks movers x -> lacks movers y;
  se_duration : forall w, x = [("duration", w)] -> dur_text w -> exists z, y = [("duration", VDur z)];
  se_text : forall w, x = [("text", w)] -> int_good w -> exists w', y = [("text", w')] /\ int_good w';
  se_value : forall w, x = [("value", w)] -> float_good w -> exists w', y = [("value", w')] /\ float_good w' }.
Definition settling (m : nat) : Prop := forall x, calm m (VDict x) -> exists y, settles m x y.

Lemma settles_extra m k x y : settles m x y -> extra m k (VDict x) -> extra m k (VDict y).
Proof.
  intros N X. split.
  - intros D. right. destruct (x_duration _ _ _ X D) as [[]|(w & [= ->] & T)].
    destruct (se_duration _ _ _ N w eq_refl T) as [z ->]. now exists (VDur z).
  - intros K. right. destruct (x_target _ _ _ X K) as [[[=] _]|(x' & [= <-] & O)]. exists y. split; [reflexivity | now apply (se_only _ _ _ N)].
  - intros K. destruct (x_uid _ _ _ X K) as (w & -> & T). now apply (se_text _ _ _ N w).
  - intros K. destruct (x_float _ _ _ X K) as (w & [= ->] & T). destruct (se_value _ _ _ N w eq_refl T) as (w' & -> & T'). now exists w'.
  - intros K. apply (se_ids _ _ _ N). exact (x_qualified _ _ _ X K).
  - intros K. destruct (x_descriptor _ _ _ X K) as (x' & [= <-] & O). exists y. split; [reflexivity | now apply (se_ids _ _ _ N)].
  - intros K. destruct (x_event _ _ _ X K) as (x' & [= <-] & O). exists y. split; [reflexivity | now apply (se_inner _ _ _ N)].
  - intros K. destruct (x_targets _ _ _ X K) as (l & [=]).
  - intros K i [<-|[]]. destruct (x_described _ _ _ X K _ (or_introl eq_refl)) as (x' & [= <-] & O). exists y. split; [reflexivity | now apply (se_described _ _ _ N)].
  - intros K. apply (se_lacks _ _ _ N). exact (x_payload _ _ _ X K).
Qed.

Lemma extra_scalar n k u w : scalar_val u = true -> scalar_val w = true -> (u = VNone -> w = VNone) -> duration_key k = false -> extra n k u -> extra n k w.
Proof.
  intros S1 S2 N D X. split.
  - congruence.
  - intros K. left. destruct (x_target _ _ _ X K) as [[E ?]|(x & -> & _)]; [split; auto | discriminate S1].
  - intros _. now destruct w.
  - intros K. destruct (x_float _ _ _ X K) as (w' & -> & _). discriminate S1.
  - intros _. now destruct w.
  - intros K. destruct (x_descriptor _ _ _ X K) as (w' & -> & _). discriminate S1.
  - intros K. destruct (x_event _ _ _ X K) as (w' & -> & _). discriminate S1.
  - intros K. destruct (x_targets _ _ _ X K) as (w' & ->). discriminate S1.
  - intros K. destruct (x_described _ _ _ X K u) as (w' & -> & _); [destruct u; try discriminate S1; now left | discriminate S1].
  - intros K. pose proof (x_payload _ _ _ X K) as P. destruct u; try discriminate S1; contradiction.
Qed.
Lemma extra_duration n k z : duration_key k = true -> extra n k (VDur z).
Proof.
  intros D. assert (E : forall q, duration_key q = false -> k <> q) by (intros q F ->; congruence).
  split; try (intros K; exfalso; revert K; apply E; reflexivity); [now left|].
  intros K. exfalso. unfold duration_key, describing in *. apply existsb_in in D. apply existsb_in in K. cbn in D, K.
  destruct D as [<-|[<-|[<-|[<-|[]]]]]; destruct K as [K|[K|[]]]; discriminate K.
Qed.

Definition all_fixed (v : val) : Prop := forall y, In (VDict y) (items_of v) -> fixed y.
(** The value of an entry, before it is tidied. *)
Record valued (m : nat) (k : string) (u v : val) : Prop := mk_valued {
  vl_ok : value_of num m (normalize_key k) u = Ok v;
  vl_calm : calm m v;
  vl_extra : extra m (fkey k) v;
  vl_fixed : all_fixed v;
  vl_scalar : scalar_val u = true -> scalar_val v = true;
  vl_duration : duration_key (fkey k) = true -> exists z, v = VDur z \/ v = VDict [("duration", VDur z)];
  vl_dict : forall x, u = VDict x -> exists y, v = VDict y /\ settles m x y;
  vl_list : forall l, u = VList l -> exists l', v = VList l' }.

Lemma value_scalar_calm m k u : scalar_val u = true -> In k known -> calm m u -> extra m (fkey k) u -> exists v, valued m k u v.
Proof.
  intros SU K C X. pose proof (known_is k K) as KF.
  assert (T : text_ok u) by (now apply (calm_scalar m u SU)).
  destruct (duration_key (fkey k)) eqn:D.
  - destruct (x_duration _ _ _ X D) as [T2|(w & -> & _)]; [|discriminate SU].
    destruct (interpret_duration_good (normalize_key k) u) as [z E]; [rewrite (kf_duration k KF); exact D | exact T2 |].
    exists (VDur z). split.
    + rewrite value_scalar by assumption. exact E.
    + apply calm_scalar; [reflexivity | exact I].
    + now apply extra_duration.
    + intros y [[=]|[]].
    + reflexivity.
    + intros _. exists z. now left.
    + intros x ->. discriminate SU.
    + intros x ->. discriminate SU.
  - destruct (interpret_calm (normalize_key k) u SU T) as (w & E & S & T2); [rewrite (kf_duration k KF); exact D |].
    exists w. split.
    + rewrite value_scalar by assumption. exact E.
    + apply calm_scalar; assumption.
    + apply (extra_scalar m (fkey k) u w SU S); [intros U; rewrite U in E; rewrite interpret_done in E by (reflexivity || (rewrite (kf_duration k KF); exact D)); congruence | exact D | exact X].
    + intros y I; exfalso; destruct w; try discriminate S; destruct I as [I|[]]; discriminate I.
    + intros _. exact S.
    + congruence.
    + intros x ->. discriminate SU.
    + intros x ->. discriminate SU.
Qed.
Lemma value_calm m k u : settling m -> In k known -> calm m u -> extra m (fkey k) u -> exists v, valued m k u v.
Proof.
  intros IH K C X. pose proof (known_is k K) as KF.
  destruct u as [|b|z|t|s|t|td|l|x]; cycle 8.
  { destruct (IH x C) as [y N]. exists (VDict y). split.
    - cbn [value_of]. rewrite (se_ok _ _ _ N). reflexivity.
    - exact (se_calm _ _ _ N).
    - now apply (settles_extra m (fkey k) x y).
    - intros y' [[= <-]|[]]. exact (se_fixed _ _ _ N).
    - discriminate.
    - intros D. destruct (x_duration _ _ _ X D) as [[]|(w & [= ->] & T)]. destruct (se_duration _ _ _ N w eq_refl T) as [z ->]. exists z. now right.
    - intros x' [= <-]. now exists y.
    - discriminate. }
  all: try (now apply value_scalar_calm).
  (* a list *)
  pose proof (proj1 (calm_list m l) C) as CL.
  assert (G : exists l', mapM (fun item => match item with
                                       | VDict x => bind (nz m x) (fun y => bind (nz m y) (fun z => Ok (VDict z)))
                                       | x => Ok x
                                       end) l = Ok l'
          /\ Forall2 (fun i i' => flat i' = true /\ calm m i' /\ (i' = i /\ scalar_val i = true
                 \/ exists x y z, i = VDict x /\ i' = VDict z /\ settles m x y /\ settles m y z)) l l').
  { clear C X. induction l as [|i l IHl]; [exists []; now split; [|constructor]|].
    destruct IHl as (l' & E & F); [intros j J; apply CL; now right|].
    destruct (CL i (or_introl eq_refl)) as [FL CI].
    destruct i as [| | | | | | | |x]; try discriminate FL; cycle 7.
    { destruct (IH x CI) as [y N]. destruct (IH y (se_calm _ _ _ N)) as [z N2]. exists (VDict z :: l'). split.
      - cbn [mapM]. rewrite (se_ok _ _ _ N). cbn [bind]. rewrite (se_ok _ _ _ N2). cbn [bind]. now rewrite E.
      - constructor; [|exact F]. split; [reflexivity|]. split; [exact (se_calm _ _ _ N2)|]. right. now exists x, y, z. }
    all: eexists (_ :: l'); (split; [cbn [mapM bind]; rewrite E; reflexivity|]); (constructor; [|exact F]); (split; [reflexivity|]); (split; [exact CI|]); left; now split. }
  destruct G as (l' & E & F). exists (VList l').
  assert (P : forall i', In i' l' -> exists i, In i l /\ flat i' = true /\ calm m i' /\ (i' = i /\ scalar_val i = true
                 \/ exists x y z, i = VDict x /\ i' = VDict z /\ settles m x y /\ settles m y z)).
  { clear - F. induction F as [|i i' l l' H F IHF]; [contradiction|]. intros j [<-|J]; [exists i; split; [now left | exact H]|].
    destruct (IHF j J) as (i0 & I & R). exists i0. split; [now right | exact R]. }
  split.
  - cbn [value_of]. now rewrite E.
  - apply calm_list. intros i' I. destruct (P i' I) as (i & _ & A & B & _). now split.
  - split.
    + intros D. destruct (x_duration _ _ _ X D) as [[]|(? & [=] & _)].
    + intros D. destruct (x_target _ _ _ X D) as [[[=] _]|(? & [=] & _)].
    + trivial.
    + intros D. destruct (x_float _ _ _ X D) as (? & [=] & _).
    + trivial.
    + intros D. destruct (x_descriptor _ _ _ X D) as (? & [=] & _).
    + intros D. destruct (x_event _ _ _ X D) as (? & [=] & _).
    + now exists l'.
    + intros D i' I. destruct (P i' I) as (i & I2 & _ & _ & [[-> S]|(x & y & z & -> & -> & N1 & N2)]);
        destruct (x_described _ _ _ X D _ I2) as (x' & E' & R); [subst i; discriminate S|]. injection E' as <-.
      exists z. split; [reflexivity|]. now apply (se_described _ _ _ N2), (se_described _ _ _ N1).
    + trivial.
  - intros y I. destruct (P _ I) as (i & _ & _ & _ & [[<- [=]]|(x & y' & z & _ & [= ->] & _ & N2)]). exact (se_fixed _ _ _ N2).
  - discriminate.
  - intros D. destruct (x_duration _ _ _ X D) as [[]|(? & [=] & _)].
  - discriminate.
  - intros l0 _. now exists l'.
Qed.

(** ** Tidying *)
Definition good (m : nat) (q : string) (w : val) : Prop := In q known /\ fkey q = q /\ calm m w /\ extra m q w.
Definition from (k q : string) : Prop :=
  q = k \/ (k = "target" /\ In q ["targets"; "targets_by_type"])
  \/ (listing k || describing k = true /\ In q ["report_requests"; "reports"; "specifier_payloads"; "report_descriptions"; "event_signals"])
  \/ (k = "qualified_event_id" /\ In q ["event_id"; "modification_number"]).

Lemma fixed_get m y q w : calm (S m) (VDict y) -> fixed y -> vget q y = Some w -> good m q w.
Proof.
  intros C F G. apply vget_in in G. destruct (F q w G) as [FQ MQ]. destruct (proj1 (calm_dict m y) C q w G) as [M|(K & CW & X)]; [congruence|].
  rewrite FQ in X. now repeat (split; [assumption|]).
Qed.
Lemma target_plain q : In q target_keys -> inb q special_keys = false.
Proof. intros I. repeat (destruct I as [<-|I]; [reflexivity|]). destruct I. Qed.

Lemma targets_calm m v : calm m v -> extra m "target" v -> all_fixed v ->
  exists ts, new_targets v = Ok ts /\ good m "targets" (VList (map (fun kv => VDict [kv]) ts)) /\ good m "targets_by_type" (VDict (grouped ts)).
Proof.
  intros C X F.
  assert (G : exists j ts, m = S j /\ new_targets v = Ok ts /\ forall q w, In (q, w) ts -> In q target_keys /\ In q known /\ fkey q = q /\ flat w = true /\ calm j w).
  { destruct (x_target _ _ _ X eq_refl) as [[-> N]|(y & -> & O)].
    - destruct m as [|j]; [congruence|]. exists j, []. repeat split; try reflexivity; contradiction.
    - destruct (calm_dict_deep m y C) as [j ->].
      assert (H : forall q w, In (q, w) (flat_map (fun kv => match snd kv with VList l => map (fun v => (fst kv, v)) l | v => [(fst kv, v)] end) y) ->
                In q target_keys /\ In q known /\ fkey q = q /\ flat w = true /\ calm j w).
      { intros q w I. apply in_flat_map in I as ([k u] & I & J). cbn [fst snd] in J.
        specialize (F y (or_introl eq_refl) k u I). destruct F as [FK MK].
        destruct (proj1 (calm_dict j y) C k u I) as [M|(K & CU & _)]; [congruence|].
        destruct (O k u I) as [M|OK]; [congruence|]. rewrite FK in OK.
        assert (Z : q = k /\ flat w = true /\ calm j w).
        { destruct u as [| | | | | | |l|]; try (destruct J as [[= <- <-]|[]]; now repeat split).
          apply in_map_iff in J as (w' & [= <- <-] & J). destruct (proj1 (calm_list j l) CU w' J). now repeat split. }
        destruct Z as (-> & A & B). now repeat split. }
      exists j. unfold new_targets. destruct (vtruthy (VDict y)); cbn [negb]; eexists; (split; [reflexivity|]); (split; [reflexivity|]); [exact H | contradiction]. }
  destruct G as (j & ts & -> & E & H). exists ts. split; [exact E|]. split.
  - destruct (more_is "targets") as [K1 K2]; [cbn; tauto|]. repeat (split; [assumption|]). split.
    + apply calm_list. intros i I. apply in_map_iff in I as ([q w] & <- & I). split; [reflexivity|].
      apply calm_dict. intros q' w' [[= <- <-]|[]]. destruct (H q w I) as (A & B & D & FL & D2). right. split; [assumption|]. split; [assumption|].
      apply extra_none. rewrite D. now apply target_plain.
    + split; try discriminate; [intros _; now eexists].
  - destruct (more_is "targets_by_type") as [K1 K2]; [cbn; tauto|]. split; [assumption|]. split; [assumption|]. split; [|now apply extra_none].
    apply calm_dict. intros q w I. right.
    enough (Q : In q known /\ In q target_keys /\ fkey q = q /\ calm j w).
    { destruct Q as (Q1 & Q2 & Q3 & Q4). split; [assumption|]. split; [assumption|]. apply extra_none. rewrite Q3. now apply target_plain. }
    revert q w I. unfold grouped.
    assert (G : forall l d, (forall q w, In (q, w) l -> In q target_keys /\ In q known /\ fkey q = q /\ flat w = true /\ calm j w) ->
      (forall q w, In (q, w) d -> In q known /\ In q target_keys /\ fkey q = q /\ calm j w) ->
      forall q w, In (q, w) (fold_left (fun d kv => match snd kv with
                         | VNone => d
                         | v => vset (fst kv) (VList ((match vget (fst kv) d with Some (VList l) => l | _ => [] end) ++ [v])%list) d
                         end) l d) -> In q known /\ In q target_keys /\ fkey q = q /\ calm j w).
    { induction l as [|[k u] l IHl]; intros d HL HD; [exact HD|]. cbn [fold_left fst snd].
      destruct (HL k u (or_introl eq_refl)) as (A & B & D & FL & CU).
      assert (Z : forall q w, In (q, w) (vset k (VList ((match vget k d with Some (VList l) => l | _ => [] end) ++ [u])%list) d) ->
             In q known /\ In q target_keys /\ fkey q = q /\ calm j w).
      { intros q w I. apply vset_in in I as [[= -> ->]|I]; [|now apply HD]. split; [assumption|]. split; [assumption|]. split; [assumption|].
        apply calm_list. intros i I. apply in_app_or in I as [I|[<-|[]]]; [|now split].
        destruct (vget k d) as [g|] eqn:E2; [|contradiction]. apply vget_in in E2. destruct (HD k g E2) as (_ & _ & _ & CG).
        destruct g; try contradiction. exact (proj1 (calm_list j _) CG i I). }
      apply IHl; [intros q w I; apply HL; now right|]. destruct u; try exact Z. exact HD. }
    apply G; [exact H | contradiction].
Qed.

(** Two scalars make a dict that is left as it is. *)
Lemma fixed_held q y : fixed y -> held q y -> exists w, In (q, w) y.
Proof. intros F (k & v & I & _ & E). destruct (F k v I) as [FK _]. exists v. congruence. Qed.
Lemma fixed_lacks ks q y : fixed y -> lacks ks y -> fkey q = q -> In q ks -> vmem q y = false.
Proof.
  intros F L E I. destruct (vmem q y) eqn:M; [|reflexivity]. apply vmem_in in M as [w M]. destruct (F q w M) as [_ N].
  destruct (L q w M) as [?|Z]; [congruence|]. rewrite E in Z. contradiction.
Qed.
Lemma two_long (y : vdict) a b v w : a <> b -> In (a, v) y -> In (b, w) y -> (2 <= length y)%nat.
Proof. intros N A B. destruct y as [|p [|q y]]; [contradiction | | cbn; lia]. destruct A as [->|[]]. destruct B as [E|[]]. congruence. Qed.
Lemma both_compact a b y : a <> b -> fixed y -> both a b y -> compact y = true.
Proof.
  intros N F (A & B & L). destruct (fixed_held a y F (proj1 A)) as [v IA]. destruct (fixed_held b y F (proj1 B)) as [w IB].
  unfold compact. rewrite (fixed_lacks movers "properties" y F L eq_refl) by (cbn; tauto). cbn [negb]. rewrite orb_true_r, andb_true_r.
  apply Nat.leb_le. exact (two_long y a b v w N IA IB).
Qed.
Lemma inner_compact y : fixed y -> inner y -> compact y = true.
Proof.
  intros F (L & A & B). destruct (fixed_held _ y F A) as [v IA].
  assert (IB : exists b w, b <> "event_descriptor" /\ In (b, w) y).
  { destruct B as [B|B]; destruct (fixed_held _ y F B) as [w IB]; eexists _, w; (split; [|exact IB]); discriminate. }
  destruct IB as (b & w & N & IB).
  unfold compact. rewrite (fixed_lacks movers "properties" y F L eq_refl) by (cbn; tauto). cbn [negb]. rewrite orb_true_r, andb_true_r.
  apply Nat.leb_le. exact (two_long y b "event_descriptor" w v N IB IA).
Qed.

(** The measurements. *)
Lemma namespace_text name : In name measurement_namespaces -> text_ok (VStr name).
Proof. intros I. repeat (destruct I as [<-|I]; [split; eexists; reflexivity|]). destruct I. Qed.
Lemma measured_calm m y : calm m (VDict y) -> fixed y -> described y -> exists r, measured (VDict y) = Ok r
  /\ match r with Some v => flat v = true /\ calm m v | None => True end.
Proof.
  intros C F D. cbn [measured]. destruct (find _ measurement_namespaces) as [name|] eqn:FN; [|now exists None].
  apply find_some in FN as [IN MN]. destruct (vmem_get name y MN) as [v G]. rewrite G. pose proof (vget_in _ _ _ G) as I.
  destruct (calm_dict_deep m y C) as [j ->]. destruct (F name v I) as [FK MK].
  destruct (D name v I MK) as (item & -> & _); [now rewrite FK|].
  destruct (proj1 (calm_dict j y) C name _ I) as [M|(K & CI & X)]; [congruence|].
  destruct (calm_dict_deep j item CI) as [i ->]. pose proof (proj1 (calm_dict i item) CI) as CE.
  set (P := fun kw : string * val => marked (fst kw) = true \/ (In (fst kw) known /\ calm i (snd kw) /\ extra i (fkey (fst kw)) (snd kw))).
  assert (P0 : forall q w, In (q, w) item -> P (q, w)) by (intros q w Q; exact (CE q w Q)).
  assert (PV : forall d q, (forall k w, In (k, w) d -> P (k, w)) -> In q ["description"; "unit"; "scale"; "pulse_factor"] -> forall w, (w = VNone \/ exists k, vget k d = Some w /\ marked k = false) ->
              P (q, w)).
  { intros d q PD Q w W. right. cbn [fst snd]. destruct (more_is q) as [K1 K2]; [cbn in Q |- *; tauto|]. split; [exact K1|]. split.
    - destruct W as [->|(k & W & MKK)]; [apply calm_scalar; [reflexivity | exact Logic.I]|]. apply vget_in in W. destruct (PD k w W) as [MM|(_ & CC & _)]; [cbn in MM; congruence | exact CC].
    - apply extra_none. rewrite K2. cbn in Q. destruct Q as [<-|[<-|[<-|[<-|[]]]]]; reflexivity. }
  assert (PS : forall q w d, (forall k u, In (k, u) d -> P (k, u)) -> P (q, w) -> forall k u, In (k, u) (vset q w d) -> P (k, u)).
  { intros q w d PD PQ k u J. apply vset_in in J as [[= -> ->]|J]; auto. }
  assert (PDL : forall q d, (forall k u, In (k, u) d -> P (k, u)) -> forall k u, In (k, u) (vdel q d) -> P (k, u)).
  { intros q d PD k u J. apply vdel_in in J. auto. }
  cbv zeta.
  set (i1 := vset "description" (match vget "item_description" item with Some v => v | None => VNone end) (vdel "item_description" item)).
  assert (P1 : forall k u, In (k, u) i1 -> P (k, u)).
  { apply PS; [now apply PDL|]. apply (PV item); [exact P0 | cbn; tauto|]. destruct (vget "item_description" item) eqn:E1; [right; now exists "item_description" | now left]. }
  set (i2 := vset "unit" (match vget "item_units" i1 with Some v => v | None => VNone end) (vdel "item_units" i1)).
  assert (P2 : forall k u, In (k, u) i2 -> P (k, u)).
  { apply PS; [now apply PDL|]. apply (PV i1); [exact P1 | cbn; tauto|]. destruct (vget "item_units" i1) eqn:E1; [right; now exists "item_units" | now left]. }
  set (i3 := match vget "si_scale_code" i2 with Some v => vset "scale" v (vdel "si_scale_code" i2) | None => i2 end).
  assert (P3 : forall k u, In (k, u) i3 -> P (k, u)).
  { unfold i3. destruct (vget "si_scale_code" i2) as [w|] eqn:E1; [|exact P2]. apply PS; [now apply PDL|]. apply (PV i2); [exact P2 | cbn; tauto | right; now exists "si_scale_code"]. }
  set (i4 := match vget "pulse_factor" i3 with Some v => vset "pulse_factor" v (vdel "pulse_factor" i3) | None => i3 end).
  assert (P4 : forall k u, In (k, u) i4 -> P (k, u)).
  { unfold i4. destruct (vget "pulse_factor" i3) as [w|] eqn:E1; [|exact P3]. apply PS; [now apply PDL|]. apply (PV i3); [exact P3 | cbn; tauto | right; now exists "pulse_factor"]. }
  eexists. split; [reflexivity|]. split; [reflexivity|]. cbn [fst snd]. fold i1. fold i2. fold i3. fold i4.
  apply calm_dict. intros q w J. apply vset_in in J as [[= -> ->]|J].
  - right. destruct (more_is "measurement") as [K1 K2]; [cbn; tauto|]. split; [exact K1|]. split; [|apply extra_none; now rewrite K2].
    assert (G4 : forall l d, (forall k u, In (k, u) l -> P (k, u)) -> (forall k u, In (k, u) d -> P (k, u)) ->
       forall k u, In (k, u) (fold_left (fun m kv => vset (fst kv) (snd kv) m) l d) -> P (k, u)).
    { induction l as [|[k0 u0] l IHl]; intros d HL HD; [exact HD|]. cbn [fold_left fst snd]. apply IHl; [intros; apply HL; now right|].
      apply PS; [exact HD | apply HL; now left]. }
    apply calm_dict. intros q w J. apply (G4 _ _ P4) in J; [exact J|].
    intros k u [[= <- <-]|[]]. right. cbn [fst snd]. destruct (more_is "name") as [K3 K4]; [cbn; tauto|]. split; [exact K3|]. split; [|apply extra_none; now rewrite K4].
    apply calm_scalar; [reflexivity|]. now apply namespace_text.
  - apply vdel_in in J. exact (proj1 (calm_dict _ y) C q w J).
Qed.
Lemma measured_all_calm m l : (forall i, In i l -> exists y, i = VDict y /\ calm m i /\ fixed y /\ described y) ->
  exists l', measured_all l = Ok l' /\ calm m (VList l').
Proof.
  induction l as [|i l IH]; intros H; [exists []; split; [reflexivity | now apply calm_list]|].
  destruct (H i (or_introl eq_refl)) as (y & -> & C & F & D). destruct (measured_calm m y C F D) as (r & E & R).
  cbn [measured_all]. rewrite E. cbn [bind]. destruct r as [v|].
  - destruct IH as (l' & E2 & C2); [intros; apply H; now right|]. rewrite E2. exists (v :: l'). split; [reflexivity|].
    apply calm_list. intros j [<-|J]; [exact R | exact (proj1 (calm_list m l') C2 j J)].
  - eexists. split; [reflexivity|]. apply calm_list. intros j J. destruct (H j J) as (y' & -> & C' & _). now split.
Qed.

(** The rest. *)
Lemma payload_int_absent m y : calm m (VDict y) -> fixed y -> vget "payload_int" y = None.
Proof.
  intros C F. destruct (vget "payload_int" y) as [w|] eqn:G; [|reflexivity]. destruct (calm_dict_deep m y C) as [j ->].
  destruct (fixed_get j y _ _ C F G) as (K & _). pose proof (kf_plain _ (known_is _ K)) as Z. discriminate Z.
Qed.
Lemma payload_float_given m y w : calm m (VDict y) -> fixed y -> vget "payload_float" y = Some w -> exists x, w = VDict [("value", x)] /\ float_good x.
Proof. intros C F G. destruct (calm_dict_deep m y C) as [j ->]. destruct (fixed_get j y _ _ C F G) as (_ & _ & _ & X). exact (x_float _ _ _ X eq_refl). Qed.
Lemma to_float_good x : float_good x -> exists t, to_float num x = Ok (VFloat t).
Proof. destruct x; try contradiction; try (intros _; eexists; reflexivity). cbn. intros ->. now eexists. Qed.

Lemma unnest_calm m k v : k <> "target" -> describing k = false -> In k known -> fkey k = k -> calm m v -> extra m k v -> all_fixed v ->
  (duration_key k = true -> exists z, v = VDur z \/ v = VDict [("duration", VDur z)]) ->
  exists r, unnest num k v = Ok r /\ match r with Some w => good m k w | None => True end.
Proof.
  intros NG DS K FK C X F DU.
  assert (SAME : good m k v) by (now repeat (split; [assumption|])).
  destruct (match v with VDict _ => true | _ => false end) eqn:ISD.
  2: { destruct (String.eqb k "report_payload") eqn:RP.
       - apply String.eqb_eq in RP; subst k. pose proof (x_payload _ _ _ X eq_refl) as P. destruct v; try contradiction; try discriminate ISD.
         eexists. split; [reflexivity|]. exact SAME.
       - destruct (String.eqb k "test_event") eqn:TE.
         + apply String.eqb_eq in TE; subst k. exists (Some (match v with VBool b => VBool b | _ => VBool true end)). split; [destruct v; try discriminate ISD; reflexivity|].
           split; [exact K|]. split; [exact FK|]. split; [destruct v; apply calm_scalar; (reflexivity || exact I) | now apply extra_none].
         + exists (Some v). split; [|exact SAME]. apply unnest_leaf; [unfold leaf_key; cbn [existsb]; now rewrite RP, TE | now destruct v]. }
  destruct v as [| | | | | | | |y]; try discriminate ISD. clear ISD. specialize (F y (or_introl eq_refl)).
  destruct (calm_dict_deep m y C) as [j ->].
  destruct (duration_key k) eqn:DK.
  { destruct (DU eq_refl) as (z & [[=]|[= ->]]). exists (Some (VDur z)). split; [reflexivity|]. split; [exact K|]. split; [exact FK|]. split; [apply calm_scalar; [reflexivity | exact I] | now apply extra_duration]. }
  destruct (string_dec k "uid") as [->|NU].
  { destruct (x_uid _ _ _ X eq_refl) as (w & -> & T). 
    assert (Z : exists z, to_int num w = Ok (VInt z)) by (destruct w; try contradiction; cbn; [now eexists | cbn in T; rewrite T; now eexists]).
    destruct Z as [z Z]. exists (Some (VInt z)). split; [unfold unnest; cbn; rewrite Z; reflexivity|].
    split; [exact K|]. split; [exact FK|]. split; [apply calm_scalar; [reflexivity | exact I]|]. split; try discriminate. trivial. }
  destruct (string_dec k "payload_float") as [->|NF].
  { destruct (x_float _ _ _ X eq_refl) as (w & [= ->] & T). exists (Some (VDict [("value", w)])). split; [reflexivity | exact SAME]. }
  destruct (string_dec k "event_descriptor") as [->|ND].
  { destruct (x_descriptor _ _ _ X eq_refl) as (y' & [= <-] & T). exists (Some (VDict y)). split; [|exact SAME].
    apply unnest_compact; [reflexivity | now apply (both_compact "event_id" "modification_number")]. }
  destruct (string_dec k "event") as [->|NE].
  { destruct (x_event _ _ _ X eq_refl) as (y' & [= <-] & T). exists (Some (VDict y)). split; [|exact SAME].
    apply unnest_compact; [reflexivity | now apply inner_compact]. }
  destruct (string_dec k "qualified_event_id") as [->|NQ].
  { pose proof (x_qualified _ _ _ X eq_refl) as T. exists (Some (VDict y)). split; [|exact SAME].
    apply unnest_compact; [reflexivity | now apply (both_compact "event_id" "modification_number")]. }
  destruct (string_dec k "targets") as [->|NT].
  { destruct (x_targets _ _ _ X eq_refl) as (l & [=]). }
  destruct (string_dec k "report_payload") as [->|NR].
  { pose proof (x_payload _ _ _ X eq_refl) as L. cbn in L. unfold unnest.
    rewrite (fixed_lacks movers "duration" y F L eq_refl) by (cbn; tauto).
    rewrite (fixed_lacks movers "report_payload" y F L eq_refl) by (cbn; tauto).
    change (butlast "report_payload") with "report_payloa".
    rewrite (fixed_lacks movers "report_payloa" y F L eq_refl) by (cbn; tauto). cbn [andb].
    change (existsb (String.eqb "report_payload") ["signal_payload"; "current_value"]) with false. cbv iota.
    change ("report_payload" =? "report_payload")%string with true. cbv iota. unfold report_value.
    rewrite (payload_int_absent _ _ C F). destruct (vget "payload_float" y) as [pf|] eqn:PF; [|eexists; split; [reflexivity | exact SAME]].
    destruct (payload_float_given _ _ _ C F PF) as (x & -> & T). destruct (to_float_good x T) as [t TF].
    change (contains_value (VDict [("value", x)])) with (Ok true). cbn [bind].
    change (the_value (VDict [("value", x)])) with (Ok x). cbn [bind]. rewrite TF. cbn [bind]. eexists. split; [reflexivity|].
    destruct (more_is "value") as [K1 K2]; [cbn; tauto|].
    split; [exact K|]. split; [exact FK|]. split.
    - apply calm_dict. intros q w J. apply vset_in in J as [[= -> ->]|J]; [|apply vdel_in in J; exact (proj1 (calm_dict _ y) C q w J)].
      right. split; [exact K1|]. split; [apply calm_scalar; [reflexivity | exact I] | now apply extra_none].
    - split; try discriminate. intros _. intros q w J. apply vset_in in J as [[= -> ->]|J]; [right; intros Z; repeat (destruct Z as [Z|Z]; [discriminate Z|]); destruct Z|].
      apply vdel_in in J. exact (L q w J). }
  assert (NS : inb k special_keys = false).
  { destruct (inb k special_keys) eqn:E; [|reflexivity]. exfalso. apply inb_in in E. clear - E DK DS NG NU NF ND NE NQ NT NR.
    repeat (destruct E as [E|E]; [subst k; try discriminate DK; try discriminate DS; congruence|]). destruct E. }
  assert (ANY : forall w, calm (S j) w -> good (S j) k w) by (intros w CW; split; [exact K|]; split; [exact FK|]; split; [exact CW | now apply extra_none]).
  assert (GET : forall q w, vget q y = Some w -> good (S j) k w).
  { intros q w G. apply ANY. apply calm_deeper. exact (proj1 (proj2 (proj2 (fixed_get j y q w C F G)))). }
  unfold unnest. cbv zeta.
  destruct (vmem "duration" y && Nat.eqb (length y) 1) eqn:B1; [exists (vget "duration" y); split; [reflexivity|]; destruct (vget "duration" y) eqn:G; [exact (GET _ _ G) | exact I]|].
  destruct (vmem k y && Nat.eqb (length y) 1) eqn:B2; [exists (vget k y); split; [reflexivity|]; destruct (vget k y) eqn:G; [exact (GET _ _ G) | exact I]|].
  destruct (vmem (butlast k) y && Nat.eqb (length y) 1) eqn:B3.
  { eexists; split; [reflexivity|]. destruct (vget (butlast k) y) as [w|] eqn:G; [|exact I]. pose proof (proj1 (proj2 (proj2 (GET _ _ G)))) as CW.
    destruct w; try exact (GET _ _ G); apply ANY, calm_list; intros i [<-|[]]; now split. }
  destruct (existsb (String.eqb k) ["signal_payload"; "current_value"]).
  { unfold payload_value. rewrite (payload_int_absent _ _ C F). destruct (vget "payload_float" y) as [pf|] eqn:PF; [|eexists; split; [reflexivity | exact SAME]].
    destruct (payload_float_given _ _ _ C F PF) as (x & -> & T). destruct (to_float_good x T) as [t TF].
    change (contains_value (VDict [("value", x)])) with (Ok true). cbn [bind].
    change (the_value (VDict [("value", x)])) with (Ok x). cbn [bind].
    exists (Some (VFloat t)). split; [destruct x; try contradiction; now rewrite TF|]. apply ANY, calm_scalar; [reflexivity | exact I]. }
  apply String.eqb_neq in NR. rewrite NR.
  destruct (k =? "test_event") eqn:TE; [eexists; split; [reflexivity|]; apply ANY, calm_scalar; [reflexivity | exact I]|].
  destruct (vmem "text" y && Nat.eqb (length y) 1) eqn:B4.
  { destruct (vget "text" y) as [w|] eqn:G; [|now exists None]. apply String.eqb_neq in NU. rewrite NU. exists (Some w). split; [reflexivity | exact (GET _ _ G)]. }
  destruct (vmem "date_time" y && Nat.eqb (length y) 1) eqn:B5; [exists (vget "date_time" y); split; [reflexivity|]; destruct (vget "date_time" y) eqn:G; [exact (GET _ _ G) | exact I]|].
  destruct (vmem "properties" y && Nat.leb (length y) 2) eqn:B6; [exists (vget "properties" y); split; [reflexivity|]; destruct (vget "properties" y) eqn:G; [exact (GET _ _ G) | exact I]|].
  destruct (Nat.eqb (length y) 0); [now exists None|]. exists (Some (VDict y)). split; [reflexivity | exact SAME].
Qed.

Lemma listed_key k : listing k || describing k = true -> In (k ++ "s") ["report_requests"; "reports"; "specifier_payloads"; "report_descriptions"; "event_signals"].
Proof.
  intros L. apply orb_true_iff in L as [L|L]; apply existsb_in in L; repeat (destruct L as [<-|L]; [cbn; tauto|]); destruct L.
Qed.
Lemma listed_plain q : In q ["report_requests"; "reports"; "specifier_payloads"; "report_descriptions"; "event_signals"] -> inb q special_keys = false.
Proof. intros I. repeat (destruct I as [<-|I]; [reflexivity|]). destruct I. Qed.
Lemma items_calm m v : calm m v -> calm m (VList (items_of v)).
Proof. intros C. destruct v as [| | | | | | |l|]; try (apply calm_list; intros i [<-|[]]; now split). exact C. Qed.

Lemma news_calm m k v : In k known -> fkey k = k -> calm m v -> extra m k v -> all_fixed v ->
  (duration_key k = true -> exists z, v = VDur z \/ v = VDict [("duration", VDur z)]) ->
  ordinary k v = true /\ exists new, news k v = Ok new /\ forall q w, In (q, w) new -> good m q w /\ from k q.
Proof.
  intros K FK C X F DU. pose proof (kf_plain k (known_is k K)) as P. rewrite FK in P. unfold inb in P. cbn [existsb] in P. rewrite !orb_false_iff in P.
  destruct P as (P1 & P2 & P3 & P4 & _). split.
  { unfold ordinary. cbn [existsb]. rewrite P1, P2, P3. cbn [orb negb andb]. destruct (k =? "event") eqn:E; [|reflexivity]. cbn [negb orb].
    apply String.eqb_eq in E; subst k. destruct (x_event _ _ _ X eq_refl) as (y & -> & (L & _)).
    rewrite (fixed_lacks movers "event" y (F y (or_introl eq_refl)) L eq_refl) by (cbn; tauto). reflexivity. }
  unfold news. destruct (k =? "target") eqn:T.
  { apply String.eqb_eq in T; subst k. destruct (targets_calm m v C X F) as (ts & E & A & B). rewrite E. cbn [bind]. eexists. split; [reflexivity|].
    intros q w [[= <- <-]|[[= <- <-]|[]]]; (split; [assumption|]); right; left; (split; [reflexivity|]); cbn; tauto. }
  destruct (listing k) eqn:L.
  { eexists. split; [reflexivity|]. intros q w [[= <- <-]|[]]. pose proof (listed_key k) as LK. rewrite L in LK. specialize (LK eq_refl).
    destruct (more_is (k ++ "s")) as [K1 K2]; [cbn in LK |- *; tauto|]. split.
    - split; [exact K1|]. split; [exact K2|]. split; [now apply items_calm | now apply extra_none, listed_plain].
    - right; right; left. rewrite L. split; [reflexivity | exact LK]. }
  destruct (describing k) eqn:D.
  { destruct (measured_all_calm m (items_of v)) as (l & E & CL).
    { intros i I. destruct (x_described _ _ _ X D i I) as (y & -> & DY). exists y. split; [reflexivity|].
      split; [exact (proj2 (proj1 (calm_list m _) (items_calm m v C) _ I))|]. split; [now apply F | exact DY]. }
    rewrite E. cbn [bind]. eexists. split; [reflexivity|]. intros q w [[= <- <-]|[]]. pose proof (listed_key k) as LK. rewrite L, D in LK. specialize (LK eq_refl).
    destruct (more_is (k ++ "s")) as [K1 K2]; [cbn in LK |- *; tauto|]. split.
    - split; [exact K1|]. split; [exact K2|]. split; [exact CL | now apply extra_none, listed_plain].
    - right; right; left. rewrite L, D. split; [reflexivity | exact LK]. }
  destruct ((k =? "qualified_event_id") && match v with VDict _ => true | _ => false end) eqn:Q.
  { apply andb_true_iff in Q as [Q V]. apply String.eqb_eq in Q; subst k. destruct v as [| | | | | | | |y]; try discriminate V.
    pose proof (x_qualified _ _ _ X eq_refl) as (A & B & _). specialize (F y (or_introl eq_refl)).
    destruct (calm_dict_deep m y C) as [j ->].
    assert (G : forall q, held q y -> In q ["event_id"; "modification_number"] -> exists w, vget q y = Some w /\ good (S j) q w).
    { intros q H I. destruct (fixed_held q y F H) as [w0 I0]. destruct (vmem_get q y) as [w G]; [apply vmem_in; eauto|]. exists w. split; [exact G|].
      destruct (fixed_get j y q w C F G) as (K1 & K2 & CW & XW). split; [exact K1|]. split; [exact K2|]. split; [now apply calm_deeper | now apply extra_deeper]. }
    destruct (G "event_id" (proj1 A)) as (w1 & G1 & GG1); [cbn; tauto|]. destruct (G "modification_number" (proj1 B)) as (w2 & G2 & GG2); [cbn; tauto|].
    rewrite G1, G2. eexists. split; [reflexivity|].
    intros q w [[= <- <-]|[[= <- <-]|[]]]; (split; [assumption|]); right; right; right; (split; [reflexivity|]); cbn; tauto. }
  apply String.eqb_neq in T. destruct (unnest_calm m k v T D K FK C X F DU) as (r & E & R). rewrite E. cbn [bind]. eexists. split; [reflexivity|].
  destruct r as [w0|]; [|contradiction]. intros q w [[= <- <-]|[]]. split; [exact R | now left].
Qed.

(** One entry. *)
Lemma entry_calm m k u : settling m -> In k known -> calm m u -> extra m (fkey k) u -> exists v new, valued m k u v /\ news (fkey k) v = Ok new
  /\ round m (k, u) new /\ forall q w, In (q, w) new -> good m q w /\ from (fkey k) q.
Proof.
  intros IH K C X. destruct (value_calm m k u IH K C X) as [v V]. pose proof (known_is k K) as KF.
  destruct (news_calm m (fkey k) v (kf_known k KF) (kf_fixed k KF) (vl_calm _ _ _ _ V) (vl_extra _ _ _ _ V) (vl_fixed _ _ _ _ V) (vl_duration _ _ _ _ V)) as (O & new & N & G).
  exists v, new. split; [exact V|]. split; [exact N|]. split; [|exact G]. exists v. cbn [fst snd]. split; [exact (vl_ok _ _ _ _ V)|]. now split.
Qed.
Lemma round_same m kv a b : round m kv a -> round m kv b -> a = b.
Proof. intros (v & V & _ & A) (w & W & _ & B). rewrite V in W. injection W as <-. congruence. Qed.

(** ** All dicts *)
Lemma news_leaf k v : general_key k = true -> leaf_key k = true -> match v with VDict _ => false | _ => true end = true -> news k v = Ok [(k, v)].
Proof.
  intros G L V. unfold general_key in G. rewrite negb_true_iff in G. cbn [existsb] in G. rewrite !orb_false_iff in G.
  unfold news, listing, describing. cbn [existsb].
  repeat match type of G with _ /\ _ => let A := fresh in destruct G as [A G] end.
  repeat match goal with E : (_ =? _)%string = false |- _ => rewrite ?E; clear E end. cbn [orb andb].
  now rewrite unnest_leaf.
Qed.
Lemma news_compact k y : general_key k = true -> dict_key k = true -> compact y = true -> news k (VDict y) = Ok [(k, VDict y)].
Proof.
  intros G L V. unfold general_key in G. rewrite negb_true_iff in G. cbn [existsb] in G. rewrite !orb_false_iff in G.
  unfold news, listing, describing. cbn [existsb].
  repeat match type of G with _ /\ _ => let A := fresh in destruct G as [A G] end.
  repeat match goal with E : (_ =? _)%string = false |- _ => rewrite ?E; clear E end. cbn [orb andb].
  now rewrite unnest_compact.
Qed.
Lemma single_calm m k w v : marked k = false -> fkey k = k -> normalize_key k = k -> general_key k = true -> leaf_key k = true -> scalar_val w = true -> scalar_val v = true ->
  interpret num k w = Ok v -> nz (S m) [(k, w)] = Ok [(k, v)].
Proof.
  intros M FK NK G L S1 S2 E. apply (run num m [((k, w), [(k, v)])]).
  - constructor; [|constructor]. cbn [fst snd].
    pose proof (adds_general num m k w v (Some v)) as A. rewrite FK, NK in A. apply A; try assumption.
    + now rewrite value_scalar.
    + apply unnest_leaf; [exact L | now destruct v].
  - cbn [map fst snd fresh_run]. reflexivity.
Qed.

Theorem settling_all m : settling m.
Proof.
  induction m as [|m IH]; intros x C; [contradiction|]. pose proof (proj1 (calm_dict m x) C) as CX.
  assert (EN : forall k u, In (k, u) x -> marked k = false -> exists v new, valued m k u v /\ news (fkey k) v = Ok new
             /\ round m (k, u) new /\ forall q w, In (q, w) new -> good m q w /\ from (fkey k) q).
  { intros k u I M. destruct (CX k u I) as [?|(K & CU & X)]; [congruence|]. now apply entry_calm. }
  destruct (run_news m x) as (y & E & [FF FK]).
  { intros [k u] I. destruct (marked k) eqn:M; [now left|]. right. destruct (EN k u I M) as (_ & new & _ & _ & R & _). now exists new. }
  assert (GO : forall q w, In (q, w) y -> exists k u v new, In (k, u) x /\ marked k = false /\ valued m k u v /\ news (fkey k) v = Ok new /\ In (q, w) new /\ good m q w /\ from (fkey k) q).
  { intros q w I. destruct (FF q w I) as ([k u] & new & I2 & M & R & N). cbn [fst] in M. destruct (EN k u I2 M) as (v & new' & V & NE & R' & G).
    pose proof (round_same _ _ _ _ R R') as <-. destruct (G q w N) as [G1 G2]. exists k, u, v, new. now repeat (split; [assumption|]). }
  assert (KEEP : forall q, (exists k u v new, In (k, u) x /\ marked k = false /\ valued m k u v /\ news (fkey k) v = Ok new /\ vmem q new = true) ->
      (forall k u v new, In (k, u) x -> marked k = false -> fkey k = q -> valued m k u v -> news (fkey k) v = Ok new -> vmem q new = true) -> exists w, In (q, w) y).
  { intros q (k & u & v & new & I & M & V & N & VM) H. apply vmem_in, FK.
    - exists (k, u), new. cbn [fst]. split; [exact I|]. split; [exact M|]. split; [|exact VM]. destruct (EN k u I M) as (v' & new' & V' & N' & R' & _).
      pose proof (vl_ok _ _ _ _ V) as E1. rewrite (vl_ok _ _ _ _ V') in E1. injection E1 as ->. rewrite N in N'. injection N' as <-. exact R'.
    - intros [k' u'] new' I' M' F' R'. cbn [fst] in *. destruct (EN k' u' I' M') as (v1 & new1 & V1 & N1 & R1 & _).
      rewrite (round_same _ _ _ _ R' R1). exact (H k' u' v1 new1 I' M' F' V1 N1). }
  assert (FX : fixed y).
  { intros q w I. destruct (GO q w I) as (_ & _ & _ & _ & _ & _ & _ & _ & _ & (K & F & _) & _). split; [exact F | exact (kf_unmarked q (known_is q K))]. }
  assert (HELD : forall q w, In (q, w) y -> held q y) by (intros q w I; exists q, w; destruct (FX q w I); now repeat split).
  assert (CY : calm (S m) (VDict y)).
  { apply calm_dict. intros q w I. right. destruct (GO q w I) as (_ & _ & _ & _ & _ & _ & _ & _ & _ & (K & F & CW & X) & _).
    split; [exact K|]. split; [exact CW|]. now rewrite F. }
  assert (LA : lacks movers x -> lacks movers y).
  { intros L q w I. right. destruct (FX q w I) as [FQ _]. rewrite FQ. destruct (GO q w I) as (k & u & _ & _ & I2 & M & _ & _ & _ & _ & FR).
    destruct (L k u I2) as [?|NL]; [congruence|].
    destruct FR as [->|[[_ FR]|[[_ FR]|[E2 FR]]]]; [exact NL | | |].
    - intros Z. repeat (destruct FR as [<-|FR]; [repeat (destruct Z as [Z|Z]; [discriminate Z|]); destruct Z|]). destruct FR.
    - intros Z. repeat (destruct FR as [<-|FR]; [repeat (destruct Z as [Z|Z]; [discriminate Z|]); destruct Z|]). destruct FR.
    - exfalso. apply NL. rewrite E2. cbn; tauto. }
  assert (SO : forall a, general_key a = true -> leaf_key a = true -> negb (inb a (["targets"; "targets_by_type"; "report_requests"; "reports"; "specifier_payloads"; "report_descriptions"; "event_signals"])) = true ->
            lacks ["qualified_event_id"] x -> solid a x -> solid a y).
  { intros a GA LA' NA L ((k & u & I & M & F) & SV). 
    assert (NEW : forall k u v new, In (k, u) x -> marked k = false -> fkey k = a -> valued m k u v -> news (fkey k) v = Ok new -> new = [(a, v)] /\ scalar_val v = true).
    { intros k1 u1 v1 new1 I1 M1 F1 V1 N1. pose proof (vl_scalar _ _ _ _ V1 (SV _ _ I1 M1 F1)) as S1. rewrite F1, news_leaf in N1 by (assumption || (now destruct v1)).
      split; [congruence | exact S1]. }
    assert (VM : forall v, vmem a [(a, v)] = true) by (intros v; unfold vmem, mem; cbn; now rewrite String.eqb_refl).
    split.
    - destruct (KEEP a) as [w IW]; [ | |exact (HELD a w IW)].
      + destruct (EN k u I M) as (v & new & V & N & _). exists k, u, v, new. repeat (split; [assumption|]). destruct (NEW k u v new I M F V N) as [-> _]. apply VM.
      + intros k1 u1 v1 new1 I1 M1 F1 V1 N1. destruct (NEW k1 u1 v1 new1 I1 M1 F1 V1 N1) as [-> _]. apply VM.
    - intros q w IW MW FW. destruct (FX q w IW) as [FQ _]. rewrite FQ in FW. subst q.
      destruct (GO a w IW) as (k1 & u1 & v1 & new1 & I1 & M1 & V1 & N1 & IN & _ & FR).
      destruct FR as [F1|[[_ FR]|[[_ FR]|[E2 FR]]]].
      + destruct (NEW k1 u1 v1 new1 I1 M1 (eq_sym F1) V1 N1) as [-> S1]. destruct IN as [[= <-]|[]]. exact S1.
      + exfalso. rewrite negb_true_iff in NA. enough (inb a (["targets"; "targets_by_type"; "report_requests"; "reports"; "specifier_payloads"; "report_descriptions"; "event_signals"]) = true) by congruence.
        apply inb_in. cbn in FR |- *; tauto.
      + exfalso. rewrite negb_true_iff in NA. enough (inb a (["targets"; "targets_by_type"; "report_requests"; "reports"; "specifier_payloads"; "report_descriptions"; "event_signals"]) = true) by congruence.
        apply inb_in. cbn in FR |- *; tauto.
      + exfalso. destruct (L k1 u1 I1) as [?|Z]; [congruence|]. apply Z. rewrite E2. now left. }
  assert (LQ : lacks movers x -> lacks ["qualified_event_id"] x).
  { intros L k u I. destruct (L k u I) as [?|N]; [now left|]. right. intros [Q|[]]. apply N. rewrite <- Q. cbn; tauto. }
  assert (BO : forall a b, general_key a = true -> leaf_key a = true -> general_key b = true -> leaf_key b = true ->
     negb (inb a (["targets"; "targets_by_type"; "report_requests"; "reports"; "specifier_payloads"; "report_descriptions"; "event_signals"])) = true ->
     negb (inb b (["targets"; "targets_by_type"; "report_requests"; "reports"; "specifier_payloads"; "report_descriptions"; "event_signals"])) = true -> both a b x -> both a b y).
  { intros a b A1 A2 B1 B2 A3 B3 (A & B & L). split; [apply SO; auto|]. split; [apply SO; auto | now apply LA]. }
  exists y. split.
  - exact E.
  - exact CY.
  - exact FX.
  - intros O q w I. destruct (FX q w I) as [FQ _]. right. rewrite FQ. destruct (GO q w I) as (k & u & _ & _ & I2 & M & _ & _ & _ & _ & FR).
    destruct (O k u I2) as [?|T]; [congruence|].
    assert (NP : fkey k <> "target" /\ listing (fkey k) || describing (fkey k) = false /\ fkey k <> "qualified_event_id").
    { clear - T. repeat (destruct T as [<-|T]; [now repeat split|]). destruct T. }
    destruct NP as (N1 & N2 & N3). destruct FR as [->|[[? _]|[[? _]|[? _]]]]; congruence.
  - now apply BO.
  - now apply BO.
  - intros D q w I MW IN. destruct (FX q w I) as [FQ _]. rewrite FQ in IN.
    destruct (GO q w I) as (k & u & v & new & I2 & M & V & N & INN & _ & FR).
    assert (q = fkey k) as ->.
    { destruct FR as [->|[[_ FR]|[[_ FR]|[_ FR]]]]; [reflexivity| | |]; exfalso; clear - FR IN;
        repeat (destruct FR as [<-|FR]; [repeat (destruct IN as [IN|IN]; [discriminate IN|]); destruct IN|]); destruct FR. }
    destruct (D k u I2 M IN) as (item & -> & IL). destruct (vl_dict _ _ _ _ V item eq_refl) as (item' & -> & ST).
    pose proof (se_item _ _ _ ST IL) as IL'.
    assert (KK : general_key (fkey k) = true /\ dict_key (fkey k) = true).
    { clear - IN. repeat (destruct IN as [<-|IN]; [now split|]). destruct IN. }
    rewrite news_compact in N; [ | exact (proj1 KK) | exact (proj2 KK) | apply (both_compact "item_description" "item_units"); [discriminate | exact (se_fixed _ _ _ ST) | exact IL']].
    injection N as <-. destruct INN as [[= <-]|[]]. now exists item'.
  - intros (L & (k & u & I & M & F) & T). split; [now apply LA|].
    assert (DE : forall k u v new, In (k, u) x -> marked k = false -> fkey k = "event_descriptor" -> valued m k u v -> news (fkey k) v = Ok new -> vmem "event_descriptor" new = true).
    { intros k1 u1 v1 new1 I1 M1 F1 V1 N1. destruct (CX k1 u1 I1) as [?|(_ & _ & X1)]; [congruence|]. rewrite F1 in X1. destruct (x_descriptor _ _ _ X1 eq_refl) as (y1 & -> & ID).
      destruct (vl_dict _ _ _ _ V1 y1 eq_refl) as (y2 & -> & ST). rewrite F1, news_compact in N1;
        [ | reflexivity | reflexivity | apply (both_compact "event_id" "modification_number"); [discriminate | exact (se_fixed _ _ _ ST) | exact (se_ids _ _ _ ST ID)]].
      injection N1 as <-. reflexivity. }
    assert (TA : forall k u v new, In (k, u) x -> marked k = false -> fkey k = "targets" -> valued m k u v -> news (fkey k) v = Ok new -> vmem "targets" new = true).
    { intros k1 u1 v1 new1 I1 M1 F1 V1 N1. destruct (CX k1 u1 I1) as [?|(_ & _ & X1)]; [congruence|]. rewrite F1 in X1. destruct (x_targets _ _ _ X1 eq_refl) as (l & ->).
      destruct (vl_list _ _ _ _ V1 l eq_refl) as (l' & ->). rewrite F1, news_leaf in N1 by reflexivity. injection N1 as <-. reflexivity. }
    split.
    + destruct (KEEP "event_descriptor") as [w IW]; [|exact DE|exact (HELD _ w IW)].
      destruct (EN k u I M) as (v & new & V & N & _). exists k, u, v, new. repeat (split; [assumption|]). now apply (DE k u v new).
    + right. destruct (KEEP "targets") as [w IW]; [|exact TA|exact (HELD _ w IW)].
      destruct T as [(k2 & u2 & I2 & M2 & F2)|(k2 & u2 & I2 & M2 & F2)]; destruct (EN k2 u2 I2 M2) as (v2 & new2 & V2 & N2 & _); exists k2, u2, v2, new2; repeat (split; [assumption|]).
      * rewrite F2 in N2. unfold news in N2. cbn [String.eqb] in N2. change ("target" =? "target")%string with true in N2. cbv iota in N2.
        destruct (new_targets v2); [|discriminate N2]. injection N2 as <-. reflexivity.
      * now apply (TA k2 u2 v2 new2).
  - intros ((k & u & I & M & F) & SR & L).
    assert (NE : forall k u v new, In (k, u) x -> marked k = false -> fkey k = "event" -> valued m k u v -> news (fkey k) v = Ok new -> vmem "event" new = true).
    { intros k1 u1 v1 new1 I1 M1 F1 V1 N1. destruct (CX k1 u1 I1) as [?|(_ & _ & X1)]; [congruence|]. rewrite F1 in X1. destruct (x_event _ _ _ X1 eq_refl) as (y1 & -> & ID).
      destruct (vl_dict _ _ _ _ V1 y1 eq_refl) as (y2 & -> & ST). rewrite F1 in N1. unfold news in N1.
      change ("event" =? "target")%string with false in N1. change (listing "event") with false in N1. change (describing "event") with false in N1.
      change ("event" =? "qualified_event_id")%string with false in N1. cbn [andb] in N1. cbv iota in N1.
      rewrite unnest_compact in N1; [|reflexivity | apply inner_compact; [exact (se_fixed _ _ _ ST) | exact (se_inner _ _ _ ST ID)]].
      injection N1 as <-. reflexivity. }
    split; [|split].
    + destruct (KEEP "event") as [w IW]; [|exact NE|exact (HELD _ w IW)].
      destruct (EN k u I M) as (v & new & V & N & _). exists k, u, v, new. repeat (split; [assumption|]). now apply (NE k u v new).
    + now apply SO.
    + intros q w IW. right. destruct (FX q w IW) as [FQ _]. rewrite FQ. intros [E1|[]]. subst q.
      destruct (GO _ _ IW) as (k1 & u1 & _ & _ & I1 & M1 & _ & _ & _ & _ & FR).
      destruct (L k1 u1 I1) as [?|NL]; [congruence|]. destruct FR as [F1|[[_ FR]|[[_ FR]|[E2 FR]]]].
      * apply NL. rewrite <- F1. now left.
      * repeat (destruct FR as [FR|FR]; [discriminate FR|]). destruct FR.
      * repeat (destruct FR as [FR|FR]; [discriminate FR|]). destruct FR.
      * repeat (destruct FR as [FR|FR]; [discriminate FR|]). destruct FR.
  - exact LA.
  - intros w -> T. destruct (interpret_duration_good "duration" w eq_refl T) as [z E2]. exists z.
    rewrite (single_calm m "duration" w (VDur z)) in E by (reflexivity || assumption || (now destruct w)). congruence.
  - intros w -> T. assert (S1 : scalar_val w = true) by (now destruct w).
    destruct (CX "text" w (or_introl eq_refl)) as [[=]|(_ & CW & _)]. destruct (interpret_calm "text" w S1) as (w' & E2 & S2 & _); [now apply (calm_scalar m) | reflexivity |].
    exists w'. rewrite (single_calm m "text" w w') in E by (reflexivity || assumption). split; [congruence|]. now apply (interpret_int_good "text" w).
  - intros w -> T. assert (S1 : scalar_val w = true) by (now destruct w).
    destruct (CX "value" w (or_introl eq_refl)) as [[=]|(_ & CW & _)]. destruct (interpret_calm "value" w S1) as (w' & E2 & S2 & _); [now apply (calm_scalar m) | reflexivity |].
    exists w'. rewrite (single_calm m "value" w w') in E by (reflexivity || assumption). split; [congruence|]. now apply (interpret_float "value" w).
Qed.

(** ** The messages themselves *)
Definition passes (m : nat) (kv : string * val) : Prop := forall d, exists d', entry num (nz m) d kv = Ok d'.
Lemma run_passes m x : (forall kv, In kv x -> passes m kv) -> exists y, nz (S m) x = Ok y.
Proof.
  cbn [normalize]. generalize (@nil (string * val)) as d. induction x as [|kv x IH]; intros d H; [now exists d|].
  destruct (H kv (or_introl eq_refl) d) as [d' E]. cbn [foldM]. rewrite E. cbn [bind]. apply IH. intros kv' I. apply H. now right.
Qed.
Lemma passes_marked m k u : marked k = true -> passes m (k, u).
Proof. intros M d. exists d. unfold entry. unfold marked in M. now rewrite M. Qed.
Lemma passes_good m k u : In k known -> calm m u -> extra m (fkey k) u -> passes m (k, u).
Proof.
  intros K C X d. destruct (entry_calm m k u (settling_all m) K C X) as (v & new & V & N & (v' & V' & O & N') & _). cbn [fst snd] in *.
  destruct (finish_news (fkey k) v' d new O N') as (d' & F & _). exists d'. rewrite (entry_value num m d k u v'); [exact F | exact (kf_unmarked k (known_is k K)) | exact V'].
Qed.
Lemma passes_pending m u : flat u = true -> calm m u -> passes m ("oadrPendingReports", u).
Proof.
  intros F C d. assert (V : exists v, value_of num m (normalize_key "oadrPendingReports") u = Ok v).
  { destruct (scalar_val u) eqn:S.
    - destruct (interpret_calm (normalize_key "oadrPendingReports") u S) as (w & E & _); [now apply (calm_scalar m) | reflexivity |].
      exists w. rewrite value_scalar by assumption. exact E.
    - destruct u as [| | | | | | | |x]; try discriminate S; try discriminate F. destruct (settling_all m x C) as [y N]. exists (VDict y). cbn [value_of]. now rewrite (se_ok _ _ _ N). }
  destruct V as [v V]. rewrite (entry_value num m d "oadrPendingReports" u v eq_refl V). change (fkey "oadrPendingReports") with "pending_reports".
  unfold finish, tidy. change ("pending_reports" =? "target")%string with false. change ("pending_reports" =? "pending_reports")%string with true. cbv iota.
  destruct v; try (eexists; reflexivity). destruct (vget "report_request_id" d0); eexists; reflexivity.
Qed.
Lemma passes_wrapped m k x : In k ["eiRequestEvent"; "eiCreatedEvent"] -> calm m (VDict x) -> passes m (k, VDict x).
Proof.
  intros K C d. destruct (settling_all m x C) as [y N].
  assert (M : marked k = false) by (destruct K as [<-|[<-|[]]]; reflexivity).
  rewrite (entry_value num m d k (VDict x) (VDict y) M) by (cbn [value_of]; now rewrite (se_ok _ _ _ N)).
  exists y. destruct K as [<-|[<-|[]]]; reflexivity.
Qed.
Lemma eventful_as_event m y : calm m (VDict y) -> fixed y -> eventful y -> vmem "event" y = true /\ exists e, as_event (VDict y) = Ok e.
Proof.
  intros C F (H & (HR & _) & _). destruct (fixed_held _ y F H) as [w IW]. destruct (fixed_held _ y F HR) as [r IR].
  assert (M : vmem "event" y = true) by (apply vmem_in; eauto). split; [exact M|].
  destruct (vmem_get _ y M) as [w' G]. destruct (vmem_get "response_required" y) as [r' GR]; [apply vmem_in; eauto|].
  destruct (calm_dict_deep m y C) as [j ->]. destruct (fixed_get j y _ _ C F G) as (_ & _ & _ & X).
  destruct (x_event _ _ _ X eq_refl) as (e & -> & _). cbn [as_event]. rewrite G, GR. eexists. reflexivity.
Qed.
Lemma passes_events m u : (forall i, In i (items_of u) -> exists x, i = VDict x /\ calm m i /\ eventful x) -> passes m ("oadrEvent", u).
Proof.
  intros H d. destruct (flat u) eqn:FL.
  - assert (U : exists x, u = VDict x /\ calm m u /\ eventful x) by (apply H; destruct u; try discriminate FL; now left).
    destruct U as (x & -> & C & E). destruct (settling_all m x C) as [y N]. pose proof (se_eventful _ _ _ N E) as EY.
    destruct (eventful_as_event m y (se_calm _ _ _ N) (se_fixed _ _ _ N) EY) as (M & e & A).
    rewrite (entry_value num m d "oadrEvent" (VDict x) (VDict y) eq_refl) by (cbn [value_of]; now rewrite (se_ok _ _ _ N)).
    change (fkey "oadrEvent") with "event". unfold finish, tidy. change ("event" =? "target")%string with false. change ("event" =? "pending_reports")%string with false.
    change ("event" =? "event")%string with true. cbn [andb]. cbv iota. rewrite M, A. cbn [bind]. eexists. reflexivity.
  - destruct u as [| | | | | | |l|]; try discriminate FL. cbn [items_of] in H. clear FL.
    assert (G : exists l', mapM (fun item => match item with
                                       | VDict x => bind (nz m x) (fun y => bind (nz m y) (fun z => Ok (VDict z)))
                                       | x => Ok x
                                       end) l = Ok l' /\ exists es, mapM as_event l' = Ok es).
    { induction l as [|i l IH]; [exists []; split; [reflexivity | now exists []]|]. destruct IH as (l' & E & es & A); [intros; apply H; now right|].
      destruct (H i (or_introl eq_refl)) as (x & -> & C & EV). destruct (settling_all m x C) as [y N]. destruct (settling_all m y (se_calm _ _ _ N)) as [z N2].
      pose proof (se_eventful _ _ _ N2 (se_eventful _ _ _ N EV)) as EZ. destruct (eventful_as_event m z (se_calm _ _ _ N2) (se_fixed _ _ _ N2) EZ) as (_ & e & AZ).
      exists (VDict z :: l'). cbn [mapM]. rewrite (se_ok _ _ _ N). cbn [bind]. rewrite (se_ok _ _ _ N2). cbn [bind]. rewrite E. cbn [bind]. split; [reflexivity|].
      exists (e :: es). cbn [mapM]. rewrite AZ. cbn [bind]. now rewrite A. }
    destruct G as (l' & E & es & A).
    rewrite (entry_value num m d "oadrEvent" (VList l) (VList l') eq_refl) by (cbn [value_of]; now rewrite E).
    change (fkey "oadrEvent") with "event". unfold finish, tidy. change ("event" =? "target")%string with false. change ("event" =? "pending_reports")%string with false.
    change ("event" =? "event")%string with true. cbn [andb]. cbv iota. rewrite A. cbn [bind]. eexists. reflexivity.
Qed.
End Calm.
