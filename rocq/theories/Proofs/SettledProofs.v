(** Proofs for C92: the checks of preflight settle a payload. *)
From Coq Require Import ZArith String List Bool Lia Permutation.
From Verif.Base Require Import Result Dict PyStr.
From Verif.Model Require Import DateTime Duration Measurements Normalize Preflight PreflightDict.
From Verif.Spec Require Import SettledSpec.
From Verif.Proofs Require Import PlacesProofs.
Import ListNotations.
Local Open Scope string_scope.
Local Open Scope Z_scope.

(** ** Dicts and loops *)
Lemma vset_same k x d : vget k d = Some x -> vset k x d = d.
Proof.
  unfold vget, vset. induction d as [|[a b] d IH]; [discriminate|]. cbn [get set]. destruct (String.eqb_spec k a) as [->|N].
  - now intros [= ->].
  - intros G. now rewrite IH.
Qed.
Lemma vget_other k j x d : k <> j -> vget k (vset j x d) = vget k d.
Proof. intros N. unfold vget, vset. now apply (get_set_other String.eqb String.eqb_eq). Qed.
Lemma vget_same k x d : vget k (vset k x d) = Some x.
Proof. unfold vget, vset. apply (get_set_same String.eqb String.eqb_eq). Qed.
Lemma vmem_get k d : vmem k d = match vget k d with Some _ => true | None => false end.
Proof. reflexivity. Qed.
Lemma item_get k d : item k (VDict d) = match vget k d with Some x => Ok x | None => Raise KeyError end.
Proof. reflexivity. Qed.

Lemma mapM_nth {X Y} (f : X -> result Y) l : forall m, mapM f l = Ok m -> length m = length l /\ forall i x, nth_error l i = Some x -> exists y, nth_error m i = Some y /\ f x = Ok y.
Proof.
  induction l as [|x l IH]; intros m H; cbn [mapM] in H.
  - injection H as <-. split; [reflexivity|]. intros [|i] x I; discriminate.
  - apply bind_ok in H as (y & F & H). apply bind_ok in H as (ys & M & H). injection H as <-. destruct (IH ys M) as [L N].
    split; [cbn; congruence|]. intros [|i] z I; cbn in I |- *; [injection I as <-; eauto|auto].
Qed.
Lemma mapMi_nth {X Y} (f : nat -> X -> result Y) l : forall m j, mapMi f j l = Ok m -> length m = length l /\ forall i x, nth_error l i = Some x -> exists y, nth_error m i = Some y /\ f (j + i)%nat x = Ok y.
Proof.
  induction l as [|x l IH]; intros m j H; cbn [mapMi] in H.
  - injection H as <-. split; [reflexivity|]. intros [|i] x I; discriminate.
  - apply bind_ok in H as (y & F & H). apply bind_ok in H as (ys & M & H). injection H as <-. destruct (IH ys (S j) M) as [L N].
    split; [cbn; congruence|]. intros [|i] z I; cbn in I |- *; [injection I as <-; exists y; now rewrite Nat.add_0_r|].
    replace (j + S i)%nat with (S j + i)%nat by lia. auto.
Qed.
Lemma mapM_fixed {X} (f : X -> result X) l : (forall x, In x l -> f x = Ok x) -> mapM f l = Ok l.
Proof. induction l as [|x l IH]; intros H; [reflexivity|]. cbn [mapM]. rewrite (H x) by now left. cbn [bind]. rewrite IH by (intros; apply H; now right). reflexivity. Qed.
Lemma mapMi_fixed {X} (f : nat -> X -> result X) l : forall j, (forall i x, In x l -> f i x = Ok x) -> mapMi f j l = Ok l.
Proof. induction l as [|x l IH]; intros j H; [reflexivity|]. cbn [mapMi]. rewrite (H j x) by now left. cbn [bind]. rewrite IH by (intros; apply H; now right). reflexivity. Qed.
Lemma mapM_back {X Y} (f : X -> result Y) l m y : mapM f l = Ok m -> In y m -> exists x, In x l /\ f x = Ok y.
Proof.
  intros H I. destruct (mapM_nth f l m H) as [L N]. apply In_nth_error in I as (i & I). destruct (nth_error l i) as [x|] eqn:E.
  - destruct (N i x E) as (z & Z & F). exists x. split; [eapply nth_error_In; eassumption|congruence].
  - apply nth_error_None in E. assert (i < length m)%nat by (apply nth_error_Some; congruence). lia.
Qed.
Lemma mapM_same_results {X Y} (f : X -> result Y) l : forall m, length l = length m -> (forall i x y, nth_error l i = Some x -> nth_error m i = Some y -> f y = f x) -> mapM f m = mapM f l.
Proof.
  induction l as [|x l IH]; intros [|y m] L H; try discriminate; [reflexivity|]. cbn [mapM]. rewrite (H O x y eq_refl eq_refl).
  rewrite (IH m); [reflexivity|now injection L|]. intros i a b A B. exact (H (S i) a b A B).
Qed.

(** ** One signal *)
Definition only (k : string) (d e : vdict) : Prop := forall j, j <> k -> vget j e = vget j d.
Lemma only_refl k d : only k d d. Proof. intros j _. reflexivity. Qed.
Lemma only_set k x d : only k d (vset k x d). Proof. intros j N. now apply vget_other. Qed.

Lemma each_fixed k f d l : vget k d = Some l -> (forall xs, elements l = Ok xs -> mapM f xs = Ok xs) -> (exists xs, elements l = Ok xs) -> each k f (VDict d) = Ok (VDict d).
Proof.
  intros G H (xs & E). unfold each. rewrite item_get, G. cbn [bind]. rewrite E. cbn [bind]. rewrite (H xs E). cbn [bind].
  destruct l; try reflexivity. cbn in E. injection E as <-. cbn [put]. now rewrite vset_same.
Qed.
Lemma simple_payload_same i j : simple_payload i = Ok j -> j = i.
Proof. unfold simple_payload. intros H. apply bind_ok in H as (p & _ & H). destruct (existsb _ _) in H; congruence. Qed.
Lemma mapM_same {X} (f : X -> result X) l : (forall x y, f x = Ok y -> y = x) -> forall m, mapM f l = Ok m -> m = l.
Proof.
  intros F. induction l as [|x l IH]; intros m H; cbn [mapM] in H; [congruence|]. apply bind_ok in H as (y & E & H). apply bind_ok in H as (ys & M & H). injection H as <-.
  f_equal; auto.
Qed.
Lemma simple_payloads d e : vget "intervals" e = vget "intervals" d -> forall w, each "intervals" simple_payload (VDict d) = Ok w -> each "intervals" simple_payload (VDict e) = Ok (VDict e).
Proof.
  intros G w H. unfold each in H. apply bind_ok in H as (l & I & H). rewrite item_get in I. destruct (vget "intervals" d) as [l'|] eqn:D; [|discriminate]. injection I as ->.
  apply bind_ok in H as (xs & E & H). apply bind_ok in H as (ys & M & H). apply (each_fixed _ _ _ l); [exact G| |now exists xs].
  intros xs' E'. rewrite E in E'. injection E' as <-. pose proof (mapM_same _ _ simple_payload_same _ M) as ->. exact M.
Qed.
Lemma simple_signal_again d e : vget "signal_name" e = vget "signal_name" d -> vget "intervals" e = vget "intervals" d ->
  forall w, simple_signal (VDict d) = Ok w -> simple_signal (VDict e) = Ok (VDict e).
Proof.
  intros N I w H. unfold simple_signal in *. rewrite !item_get in *. rewrite N. destruct (vget "signal_name" d) as [n|]; [|discriminate]. cbn [bind] in *.
  destruct (the_text "SIMPLE" n); [|reflexivity]. exact (simple_payloads d e I w H).
Qed.
Lemma simple_signal_keeps v w : simple_signal v = Ok w -> w = v.
Proof.
  intros H. pose proof H as H'. unfold simple_signal in H. apply bind_ok in H as (n & I & _). apply item_ok in I as (d & -> & _).
  rewrite (simple_signal_again d d eq_refl eq_refl w H') in H'. congruence.
Qed.

Definition status_of (event : val) : result val := bind (item "event_descriptor" event) (fun d => item "event_status" d).
Lemma current_value_ok event d w : current_value event (VDict d) = Ok w -> exists e, w = VDict e /\ only "current_value" d e
  /\ forall event' f, status_of event' = status_of event -> vget "current_value" f = vget "current_value" e -> vget "signal_name" f = vget "signal_name" e -> current_value event' (VDict f) = Ok (VDict f).
Proof.
  unfold current_value. cbn [has bind]. rewrite vmem_get. intros H. destruct (vget "current_value" d) as [c|] eqn:C.
  - rewrite item_get, C in H. cbn [bind] in H. destruct (is_number 0 c) eqn:Z.
    { injection H as <-. exists d. split; [reflexivity|]. split; [apply only_refl|]. intros ev f _ F _. cbn [has bind]. now rewrite vmem_get, item_get, F, C; cbn [bind]; rewrite Z. }
    apply bind_ok in H as (n & N & H). rewrite item_get in N. destruct (vget "signal_name" d) as [n'|] eqn:SN; [|discriminate]. injection N as ->.
    destruct (the_text "SIMPLE" n) eqn:T.
    + apply bind_ok in H as (de & D & H). apply bind_ok in H as (st & S & H). injection H as <-. destruct (the_text "ACTIVE" st) eqn:A.
      * exists d. split; [reflexivity|]. split; [apply only_refl|]. intros ev f S' F F'. cbn [has bind]. rewrite vmem_get, item_get, F, C. cbn [bind]. rewrite Z, item_get, F', SN. cbn [bind]. rewrite T.
        unfold status_of in S'. rewrite D in S'. cbn [bind] in S'. rewrite S in S'. apply bind_ok in S' as (de' & S1 & S2). rewrite S1. cbn [bind]. rewrite S2. cbn [bind]. now rewrite A.
      * eexists. split; [reflexivity|]. split; [apply only_set|]. intros ev f _ F _. rewrite vget_same in F. cbn [has bind]. rewrite vmem_get, item_get, F. reflexivity.
    + injection H as <-. exists d. split; [reflexivity|]. split; [apply only_refl|]. intros ev f _ F F'. cbn [has bind]. rewrite vmem_get, item_get, F, C. cbn [bind]. rewrite Z, item_get, F', SN. cbn [bind]. now rewrite T.
  - injection H as <-. exists d. split; [reflexivity|]. split; [apply only_refl|]. intros ev f _ F _. cbn [has bind]. now rewrite vmem_get, F, C.
Qed.

Lemma add_ns_again m n : add_ns m = Ok n -> add_ns n = Ok n.
Proof.
  unfold add_ns. intros H. apply bind_ok in H as (na & I & H). apply item_ok in I as (d & -> & G). destruct na as [|b|z|t|s|t|z|l|x]; try discriminate.
  destruct (get String.eqb s Measurements.measurement_namespaces) as [ns|] eqn:E; [|discriminate]. injection H as <-. cbn [put]. rewrite item_get, vget_other, G by discriminate.
  cbn [bind]. rewrite E. cbn [put]. now rewrite vset_same by apply vget_same.
Qed.
Lemma add_ns_some m n : add_ns m = Ok n -> exists d, n = VDict d.
Proof.
  unfold add_ns. intros H. apply bind_ok in H as (na & I & H). apply item_ok in I as (d & -> & G). destruct na as [|b|z|t|s|t|z|l|x]; try discriminate.
  destruct (get String.eqb s Measurements.measurement_namespaces) as [ns|]; [|discriminate]. injection H as <-. eexists. reflexivity.
Qed.
Lemma measured_ok f d w : (forall m n, f m = Ok n -> exists x, n = VDict x) -> measured f (VDict d) = Ok w -> exists e, w = VDict e /\ only "measurement" d e
  /\ forall g, (forall m n, f m = Ok n -> g n = Ok n) -> measured g (VDict e) = Ok (VDict e).
Proof.
  intros FD. unfold measured. cbn [has bind]. rewrite vmem_get. intros H. destruct (vget "measurement" d) as [m|] eqn:M.
  - rewrite item_get, M in H. cbn [bind] in H.
    assert (C : (m = VNone /\ w = VDict d) \/ exists n, f m = Ok n /\ w = VDict (vset "measurement" n d)).
    { destruct m; [left; now injection H as <-|..]; right; apply bind_ok in H as (n & F & H); injection H as <-; now exists n. }
    clear H. destruct C as [[-> ->]|(n & F & ->)].
    + exists d. split; [reflexivity|]. split; [apply only_refl|]. intros g _. cbn [has bind]. now rewrite vmem_get, item_get, M.
    + eexists. split; [reflexivity|]. split; [apply only_set|]. intros g G. cbn [has bind]. rewrite vmem_get, item_get, vget_same. cbn [bind].
      destruct (FD m n F) as (x & ->). rewrite (G m _ F). cbn [bind put]. now rewrite vset_same by apply vget_same.
  - injection H as <-. exists d. split; [reflexivity|]. split; [apply only_refl|]. intros g _. cbn [has bind]. now rewrite vmem_get, M.
Qed.

Lemma signal_total_get d e : vget "intervals" e = vget "intervals" d -> signal_total (VDict e) = signal_total (VDict d).
Proof. intros H. unfold signal_total. now rewrite !item_get, H. Qed.
Lemma signal_total_dict s z : signal_total s = Ok z -> exists d, s = VDict d.
Proof. unfold signal_total. intros H. apply bind_ok in H as (l & I & _). apply item_ok in I as (d & -> & _). now exists d. Qed.

(** ** One event *)
Definition signals (d : vdict) (ss : list val) : Prop := exists l, vget "event_signals" d = Some l /\ elements l = Ok ss /\ (l = VList ss \/ ss = []).
Lemma signals_get d e ss : vget "event_signals" e = vget "event_signals" d -> signals d ss -> signals e ss.
Proof. intros G (l & L & H). exists l. split; [congruence|exact H]. Qed.
Lemma each_signals f d ss w : signals d ss -> each "event_signals" f (VDict d) = Ok w -> exists e ts, w = VDict e /\ mapM f ss = Ok ts /\ signals e ts /\ only "event_signals" d e.
Proof.
  intros (l & G & E & C) H. unfold each in H. rewrite item_get, G in H. cbn [bind] in H. rewrite E in H. cbn [bind] in H. apply bind_ok in H as (ts & M & H). injection H as <-.
  destruct C as [->|C].
  - eexists. exists ts. split; [reflexivity|]. split; [exact M|]. split; [|apply only_set]. exists (VList ts). split; [apply vget_same|]. split; [reflexivity|now left].
  - subst ss. cbn in M. injection M as <-. destruct l as [|b|z|t|s|t|z|l|x]; cbn in E; try discriminate.
    + exists d, []. split; [reflexivity|]. split; [reflexivity|]. split; [|apply only_refl]. exists (VStr s). repeat split; auto.
    + injection E as ->. eexists. exists []. split; [reflexivity|]. split; [reflexivity|]. split; [|apply only_set]. exists (VList []). split; [apply vget_same|]. split; [reflexivity|now left].
    + exists d, []. split; [reflexivity|]. split; [reflexivity|]. split; [|apply only_refl]. exists (VDict x). repeat split; auto.
Qed.
Lemma each_signals_fixed f d ss : signals d ss -> mapM f ss = Ok ss -> each "event_signals" f (VDict d) = Ok (VDict d).
Proof. intros (l & G & E & _) M. apply (each_fixed _ _ _ l); [exact G| |now exists ss]. intros xs E'. rewrite E in E'. injection E' as <-. exact M. Qed.

Record lasting (d : vdict) (ss : list val) (ds : list Z) (x : val) : Prop := {
  lasting_period : exists p, vget "active_period" d = Some (VDict p) /\ vget "duration" p = Some x;
  lasting_totals : mapM signal_total ss = Ok ds;
  lasting_all : forallb (fun z => lasts z x) ds = true }.
Lemma event_duration_fixed d ss ds x : signals d ss -> lasting d ss ds x -> event_duration (VDict d) = Ok (VDict d).
Proof.
  intros (l & G & E & _) [(p & P & X) T A]. unfold event_duration. rewrite item_get, P. cbn [bind]. rewrite item_get, X. cbn [bind]. rewrite item_get, G. cbn [bind]. rewrite E. cbn [bind]. rewrite T. cbn [bind]. now rewrite A.
Qed.
Lemma event_duration_ok v w : event_duration v = Ok w -> exists d e ss ds x, v = VDict d /\ w = VDict e /\ only "active_period" d e /\ signals e ss /\ lasting e ss ds x
  /\ (ds <> [] -> exists z, x = VDur z /\ Forall (eq z) ds).
Proof.
  intros H. unfold event_duration in H. apply bind_ok in H as (p & P & H). apply item_ok in P as (d & -> & P). apply bind_ok in H as (x & X & H). apply item_ok in X as (a & -> & X).
  apply bind_ok in H as (l & L & H). rewrite item_get in L. destruct (vget "event_signals" d) as [l'|] eqn:G; [|discriminate]. injection L as ->.
  apply bind_ok in H as (ss & E & H). apply bind_ok in H as (ds & T & H).
  assert (S : l = VList ss \/ ss = []).
  { destruct l as [|b|z|t|s|t|z|l|y]; cbn in E; try discriminate; injection E as <-; [|now left|].
    - right. destruct s as [|c s]; [reflexivity|]. cbn in T. discriminate.
    - right. destruct y as [|[k v] y]; [reflexivity|]. cbn in T. discriminate. }
  assert (V : forall x, forallb (fun z => lasts z x) ds = true -> ds <> [] -> exists z, x = VDur z /\ Forall (eq z) ds).
  { intros y A N. destruct ds as [|z0 ds]; [contradiction|]. destruct y as [|b|z|t|s|t|z|l0|y]; try discriminate. exists z. split; [reflexivity|].
    apply Forall_forall. intros q Q. rewrite forallb_forall in A. specialize (A q Q). cbn in A. apply Z.eqb_eq in A. congruence. }
  destruct (forallb (fun z => lasts z x) ds) eqn:A.
  { injection H as <-. exists d, d, ss, ds, x. split; [reflexivity|]. split; [reflexivity|]. split; [apply only_refl|]. split; [now exists l|]. split; [split; [now exists a|exact T|exact A]|auto]. }
  destruct ds as [|d0 ds]; [discriminate|]. destruct (forallb (fun z => z =? d0) (d0 :: ds)) eqn:B; [|discriminate].
  apply bind_ok in H as (de & _ & H). apply bind_ok in H as (id & _ & H). injection H as <-. assert (A' : forallb (fun z => lasts z (VDur d0)) (d0 :: ds) = true) by exact B.
  exists d. eexists. exists ss, (d0 :: ds), (VDur d0). split; [reflexivity|]. split; [reflexivity|]. split; [apply only_set|].
  split; [exists l; split; [now rewrite vget_other by discriminate|split; assumption]|]. split; [|auto]. split; [|exact T|exact A'].
  exists (vset "duration" (VDur d0) a). split; apply vget_same.
Qed.

Lemma response_required_ok d w : response_required (VDict d) = Ok w -> exists e, w = VDict e /\ only "response_required" d e
  /\ vget "response_required" e = match vget "response_required" d with Some (VStr "never") => Some (VStr "never") | _ => Some (VStr "always") end
  /\ forall f, vget "response_required" f = vget "response_required" e -> response_required (VDict f) = Ok (VDict f).
Proof.
  unfold response_required. cbn [has bind]. rewrite vmem_get. intros H.
  assert (R : forall f, vget "response_required" f = Some (VStr "always") -> response_required (VDict f) = Ok (VDict f)).
  { intros f F. unfold response_required. cbn [has bind]. now rewrite vmem_get, item_get, F. }
  assert (N : w = VDict (vset "response_required" (VStr "always") d) -> exists e, w = VDict e /\ only "response_required" d e /\ vget "response_required" e = Some (VStr "always")
     /\ forall f, vget "response_required" f = vget "response_required" e -> response_required (VDict f) = Ok (VDict f)).
  { intros ->. eexists. split; [reflexivity|]. split; [apply only_set|]. split; [apply vget_same|]. intros f F. rewrite vget_same in F. exact (R f F). }
  destruct (vget "response_required" d) as [r|] eqn:G; [|injection H as <-; exact (N eq_refl)].
  rewrite item_get, G in H. cbn [bind] in H. injection H as H. destruct r as [|b|z|t|s|t|z|l|x]; try (apply N; symmetry; exact H).
  cbn [the_text] in H. destruct (String.eqb_spec "never" s) as [<-|NE].
  { cbn [orb] in H. subst w. exists d. split; [reflexivity|]. split; [apply only_refl|]. split; [exact G|]. intros f F. unfold response_required. cbn [has bind]. rewrite vmem_get, item_get, F, G. reflexivity. }
  assert (M : match Some (VStr s) with Some (VStr "never") => Some (VStr "never") | _ => Some (VStr "always") end = Some (VStr "always")).
  { destruct (string_dec s "never") as [->|]; [congruence|]. clear - n.
    repeat (match goal with |- context [match ?x with _ => _ end] => is_var x; destruct x end; try reflexivity). now destruct n. }
  rewrite M. destruct (String.eqb_spec "always" s) as [<-|NA]; cbn [orb] in H; [|apply N; now symmetry].
  subst w. exists d. split; [reflexivity|]. split; [apply only_refl|]. split; [exact G|]. intros f F. apply R. congruence.
Qed.

Lemma created_date_time_ok now d w : created_date_time now (VDict d) = Ok w -> exists e c f, w = VDict e /\ only "event_descriptor" d e
  /\ vget "event_descriptor" d = Some (VDict c) /\ vget "event_descriptor" e = Some (VDict f) /\ only "created_date_time" c f
  /\ vget "created_date_time" f = match vget "created_date_time" c with Some t => if vtruthy t then Some t else Some (VTime now) | None => Some (VTime now) end
  /\ forall now' g, vget "event_descriptor" g = vget "event_descriptor" e -> created_date_time now' (VDict g) = Ok (VDict g).
Proof.
  intros H. unfold created_date_time in H. apply bind_ok in H as (de & I & H). rewrite item_get in I. destruct (vget "event_descriptor" d) as [de'|] eqn:G; [|discriminate]. injection I as ->.
  apply bind_ok in H as (h & HH & H). apply bind_ok in H as (b & B & H).
  assert (D : exists c, de = VDict c).
  { destruct b; [|destruct de; try discriminate; eauto]. destruct h; [|discriminate]. apply bind_ok in B as (t & I & _). apply item_ok in I as (c & -> & _). now exists c. }
  destruct D as (c & ->). cbn [has] in HH. injection HH as <-. rewrite vmem_get in B.
  assert (Y : forall now' g f t, vget "event_descriptor" g = Some (VDict f) -> vget "created_date_time" f = Some t -> vtruthy t = true -> created_date_time now' (VDict g) = Ok (VDict g)).
  { intros now' g f t F T V. unfold created_date_time. rewrite item_get, F. cbn [bind has]. rewrite vmem_get, item_get, T. cbn [bind]. now rewrite V. }
  destruct b.
  - injection H as <-. destruct (vget "created_date_time" c) as [t|] eqn:C; [|discriminate]. rewrite item_get, C in B. cbn [bind] in B. injection B as V.
    exists d, c, c. split; [reflexivity|]. split; [apply only_refl|]. split; [reflexivity|]. split; [exact G|]. split; [apply only_refl|]. rewrite C, V. split; [reflexivity|].
    intros now' g F. apply (Y now' g c t); congruence.
  - injection H as <-. eexists. exists c. eexists. split; [reflexivity|]. split; [apply only_set|]. split; [reflexivity|]. split; [apply vget_same|]. split; [apply only_set|]. split.
    + rewrite vget_same. destruct (vget "created_date_time" c) as [t|] eqn:C; [|reflexivity]. rewrite item_get, C in B. cbn [bind] in B. injection B as ->. reflexivity.
    + intros now' g F. rewrite vget_same in F. apply (Y now' g _ (VTime now) F); [apply vget_same|reflexivity].
Qed.

(** ** Targets *)
Lemma ungroup_listed b : exists l, ungroup_targets (VDict b) = Ok (VList l) /\ listed b l.
Proof.
  eexists. split; [reflexivity|]. induction b as [|[k v] b IH]; [constructor|]. cbn [flat_map fst snd]. destruct v as [|x|z|t|s|t|z|xs|x]; try (apply listed_other; [discriminate|discriminate|exact IH]).
  - apply listed_text. exact IH.
  - induction xs as [|x xs IHx]; [now apply listed_end|]. cbn [map app]. apply listed_more. exact IHx.
Qed.

Definition of_dict (k : string) (d : vdict) : list val := flat_map (fun kv => if String.eqb (fst kv) k then match snd kv with VNone => [] | v => [v] end else []) d.
Definition holds_type (g : vdict) (k : string) (l : list val) : Prop := vget k g = match l with [] => None | l => Some (VList l) end.
Lemma holds_add g k l v : holds_type g k l -> vget k (match vget k g with Some (VList l) => vset k (VList (l ++ [v])) g | _ => vset k (VList [v]) g end) = Some (VList (l ++ [v])%list).
Proof. unfold holds_type. intros ->. destruct l as [|x l]; apply vget_same. Qed.
Lemma group_target_other g kv k : fst kv <> k -> vget k (group_target g kv) = vget k g.
Proof.
  intros N. unfold group_target. assert (O : forall x, vget k (vset (fst kv) x g) = vget k g) by (intros x; apply vget_other; congruence).
  destruct (snd kv); try reflexivity; destruct (vget (fst kv) g) as [[]|]; apply O.
Qed.
Lemma group_dict d : forall g, (forall k, exists l, holds_type g k l) -> forall k l, holds_type g k l -> holds_type (fold_left group_target d g) k (l ++ of_dict k d)%list.
Proof.
  induction d as [|[a v] d IH]; intros g W k l H; cbn [fold_left of_dict flat_map fst snd]; [now rewrite app_nil_r|].
  assert (S : forall k l, holds_type g k l -> holds_type (group_target g (a, v)) k (l ++ (if String.eqb a k then match snd (a, v) with VNone => [] | w => [w] end else []))%list).
  { clear k l H. intros k l H. cbn [snd]. destruct (String.eqb_spec a k) as [->|N].
    - unfold group_target. cbn [fst snd]. assert (A : holds_type (match vget k g with Some (VList l0) => vset k (VList (l0 ++ [v])) g | _ => vset k (VList [v]) g end) k (l ++ [v])%list).
      { unfold holds_type at 1. rewrite (holds_add g k l v H). now destruct (l ++ [v])%list eqn:E; [destruct l|]. }
      destruct v; try exact A. now rewrite app_nil_r.
    - rewrite app_nil_r. unfold holds_type. rewrite group_target_other by exact N. exact H. }
  rewrite app_assoc. apply (IH (group_target g (a, v))); [|exact (S k l H)]. intros j. destruct (W j) as (m & M). eexists. exact (S j m M).
Qed.
Lemma group_fold ts : forall g h, (forall k, exists l, holds_type g k l) ->
  foldM (fun g t => match t with VDict d => Ok (fold_left group_target d g) | _ => Raise AttributeError end) ts g = Ok h ->
  forall k l, holds_type g k l -> holds_type h k (l ++ of_type k ts)%list.
Proof.
  induction ts as [|t ts IH]; intros g h W H k l L; cbn [foldM] in H.
  - injection H as <-. cbn. now rewrite app_nil_r.
  - destruct t; try discriminate. cbn [bind] in H. cbn [of_type flat_map]. fold (of_dict k d). fold (of_type k ts). rewrite app_assoc. refine (IH _ h _ H k _ _).
    + intros j. destruct (W j) as (m & M). eexists. exact (group_dict d g W j m M).
    + exact (group_dict d g W k l L).
Qed.
Lemma group_spec ts g : group_targets (VList ts) = Ok g -> forall k, holds_type g k (of_type k ts).
Proof. unfold group_targets. cbn [elements bind]. intros H k. refine (group_fold ts [] g _ H k [] _); [intros j; now exists []|reflexivity]. Qed.
Lemma group_nodup ts : forall g h, NoDup (keys g) -> foldM (fun g t => match t with VDict d => Ok (fold_left group_target d g) | _ => Raise AttributeError end) ts g = Ok h -> NoDup (keys h).
Proof.
  assert (D : forall d g, NoDup (keys g) -> NoDup (keys (fold_left group_target d g))).
  { induction d as [|[a v] d IH]; intros g N; [exact N|]. cbn [fold_left]. apply IH. unfold group_target. cbn [fst snd].
    assert (A : forall x, NoDup (keys (vset a x g))) by (intros x; now apply (nodup_set String.eqb String.eqb_eq)).
    destruct v; try exact N; destruct (vget a g) as [[]|]; apply A. }
  induction ts as [|t ts IH]; intros g h N H; cbn [foldM] in H; [now injection H as <-|]. destruct t; try discriminate. cbn [bind] in H. exact (IH _ h (D d g N) H).
Qed.
Lemma same_texts_eq l : forall m, same_texts l m = true -> l = m.
Proof.
  induction l as [|x l IH]; intros [|y m] H; try reflexivity; [discriminate|destruct x; discriminate|]. destruct x; try discriminate. destruct y; try discriminate.
  cbn in H. apply andb_prop in H as [H1 H2]. apply String.eqb_eq in H1. f_equal; [congruence|auto].
Qed.
Lemma same_groups_spec ts g b : group_targets (VList ts) = Ok g -> same_groups g b = true ->
  exists d, b = VDict d /\ (NoDup (map fst d) -> forall k, match of_type k ts with [] => vget k d = None | l => vget k d = Some (VList l) end).
Proof.
  intros G S. destruct b as [|x|z|t|s|t|z|xs|d]; try discriminate. exists d. split; [reflexivity|]. intros N k. cbn [same_groups] in S. apply andb_prop in S as [SL SA]. apply Nat.eqb_eq in SL.
  rewrite forallb_forall in SA. pose proof (group_spec ts g G) as H. unfold group_targets in G. cbn [elements bind] in G. pose proof (group_nodup ts [] g (NoDup_nil _) G) as NG.
  assert (E : forall j v, In (j, v) g -> vget j d = Some v).
  { intros j v I. specialize (SA (j, v) I). cbn [fst snd] in SA. destruct v as [| | | | | | |l|]; try discriminate. destruct (vget j d) as [[| | | | | | |m|]|]; try discriminate.
    apply same_texts_eq in SA. congruence. }
  specialize (H k). unfold holds_type in H. destruct (of_type k ts) as [|x l].
  - destruct (vget k d) as [v|] eqn:V; [|reflexivity]. exfalso.
    assert (IN : incl (keys d) (keys g)).
    { apply NoDup_length_incl; [exact NG|unfold keys; rewrite !map_length; lia|]. intros j J. unfold keys in J. apply in_map_iff in J as ((j' & v') & <- & J). cbn.
      apply E in J. unfold vget in J. apply (get_in String.eqb String.eqb_eq) in J. apply in_map_iff. now exists (j', v'). }
    assert (K : In k (keys g)). { apply IN. unfold vget in V. apply (get_in String.eqb String.eqb_eq) in V. apply in_map_iff. now exists (k, v). }
    unfold vget in H. apply (get_none_iff String.eqb String.eqb_eq) in H. contradiction.
  - apply E. unfold vget in H. now apply (get_in String.eqb String.eqb_eq) in H.
Qed.

Lemma group_more k s g x : vget k g = Some (VList x) -> group_target g (k, VStr s) = vset k (VList (x ++ [VStr s])) g.
Proof. intros G. unfold group_target. cbn [fst snd]. now rewrite G. Qed.
Lemma group_first k s g : vget k g = None -> group_target g (k, VStr s) = vset k (VList [VStr s]) g.
Proof. intros G. unfold group_target. cbn [fst snd]. now rewrite G. Qed.
Lemma group_one l : forall k g x, vget k g = Some (VList x) ->
  foldM (fun g t => match t with VDict d => Ok (fold_left group_target d g) | _ => Raise AttributeError end) (map (fun t => VDict [(k, t)]) (map VStr l)) g = Ok (vset k (VList (x ++ map VStr l)) g).
Proof.
  induction l as [|s l IH]; intros k g x G; cbn [map foldM].
  - rewrite app_nil_r. now rewrite vset_same.
  - cbn [fold_left bind]. rewrite (group_more k s g x G). rewrite (IH k _ (x ++ [VStr s])%list) by apply vget_same. f_equal. rewrite <- app_assoc. cbn [app].
    unfold vset. clear. induction g as [|[a b] g IH]; cbn [set]; [now rewrite String.eqb_refl|]. destruct (String.eqb_spec k a) as [->|N]; cbn [set].
    + now rewrite String.eqb_refl.
    + destruct (String.eqb_spec k a); [contradiction|]. now rewrite IH.
Qed.
Lemma foldM_app {X Y} (f : X -> Y -> result X) l m : forall a, foldM f (l ++ m) a = bind (foldM f l a) (fun b => foldM f m b).
Proof. induction l as [|y l IH]; intros a; [reflexivity|]. cbn [app foldM]. destruct (f a y); [apply IH|reflexivity]. Qed.
Lemma group_ungroup b : forall g, NoDup (map fst g ++ map fst b) -> Forall (fun kv => exists s l, snd kv = VList (VStr s :: map VStr l)) b ->
  foldM (fun g t => match t with VDict d => Ok (fold_left group_target d g) | _ => Raise AttributeError end)
    (flat_map (fun kv => match snd kv with VList l => map (fun t => VDict [(fst kv, t)]) l | VStr s => [VDict [(fst kv, VStr s)]] | _ => [] end) b) g = Ok (g ++ b)%list.
Proof.
  induction b as [|[k v] b IH]; intros g N F; cbn [flat_map fst snd]; [now rewrite app_nil_r|]. inversion F as [|? ? (s & l & E) F']; subst. cbn [snd] in E. subst v.
  rewrite foldM_app. cbn [map foldM]. cbn [fold_left bind].
  assert (K : vget k g = None).
  { unfold vget. apply (get_none_iff String.eqb String.eqb_eq). intros I. cbn [map fst] in N. apply NoDup_remove_2 in N. apply N. apply in_or_app. now left. }
  rewrite (group_first k s g K). rewrite (group_one l k _ [VStr s]) by apply vget_same. cbn [bind app].
  assert (Q : vset k (VList (VStr s :: map VStr l)) (vset k (VList [VStr s]) g) = (g ++ [(k, VList (VStr s :: map VStr l))])%list).
  { unfold vset. unfold vget in K. rewrite (set_absent String.eqb k _ g K). clear - K. induction g as [|[a b] g IH]; cbn [set app]; [now rewrite String.eqb_refl|].
    cbn [get] in K. destruct (String.eqb k a); [discriminate|]. now rewrite IH. }
  rewrite Q, IH; [now rewrite <- app_assoc| |exact F']. rewrite map_app, <- app_assoc. exact N.
Qed.
Lemma same_texts_refl l : same_texts (map VStr l) (map VStr l) = true.
Proof. induction l as [|s l IH]; [reflexivity|]. cbn. now rewrite String.eqb_refl. Qed.
Lemma same_groups_refl b : tidy_groups b -> same_groups b (VDict b) = true.
Proof.
  intros [N F]. cbn [same_groups]. rewrite Nat.eqb_refl. cbn [andb]. apply forallb_forall. intros (k & v) I. cbn [fst snd]. pose proof (in_get_nodup String.eqb String.eqb_eq k v b N I) as G.
  unfold vget. rewrite G. rewrite Forall_forall in F. destruct (F _ I) as (s & l & E). cbn [snd] in E. subst v. exact (same_texts_refl (s :: l)).
Qed.

Lemma targets_ok d w : targets (VDict d) = Ok w -> exists e, w = VDict e /\ only "targets" d e
  /\ (match vget "targets" d, vget "targets_by_type" d with
      | Some ts, _ => vget "targets" e = Some ts
      | None, None => vget "targets" e = None
      | None, Some b => exists c l, b = VDict c /\ listed c l /\ vget "targets" e = Some (VList l)
      end)
  /\ (forall ts b, vget "targets" d = Some (VList ts) -> vget "targets_by_type" d = Some b ->
        exists c, b = VDict c /\ (NoDup (map fst c) -> forall k, match of_type k ts with [] => vget k c = None | l => vget k c = Some (VList l) end))
  /\ ((forall b, vget "targets" d = None -> vget "targets_by_type" d = Some (VDict b) -> tidy_groups b) -> targets (VDict e) = Ok (VDict e)).
Proof.
  unfold targets at 1. cbn [has bind]. rewrite !vmem_get. intros H. destruct (vget "targets" d) as [ts|] eqn:T, (vget "targets_by_type" d) as [b|] eqn:B.
  - rewrite !item_get in H. rewrite T in H. cbn [bind] in H. apply bind_ok in H as (g & G & H). rewrite B in H. cbn [bind] in H. destruct (same_groups g b) eqn:S; [|discriminate]. injection H as <-.
    exists d. split; [reflexivity|]. split; [apply only_refl|]. split; [exact T|]. split.
    + intros ts' b' [= ->] [= <-]. exact (same_groups_spec ts' g b G S).
    + intros _. unfold targets. cbn [has bind]. rewrite !vmem_get, !item_get, T, B. cbn [bind]. rewrite G. cbn [bind]. now rewrite S.
  - injection H as <-. exists d. split; [reflexivity|]. split; [apply only_refl|]. split; [exact T|]. split; [discriminate|]. intros _. unfold targets. cbn [has bind]. now rewrite !vmem_get, T, B.
  - rewrite item_get, B in H. cbn [bind] in H. apply bind_ok in H as (l & U & H). injection H as <-.
    destruct b as [|x|z|t|s|t|z|xs|c]; try discriminate. destruct (ungroup_listed c) as (l' & U' & L). rewrite U in U'. injection U' as ->.
    eexists. split; [reflexivity|]. split; [apply only_set|]. split; [exists c, l'; split; [reflexivity|]; split; [exact L|apply vget_same]|]. split; [discriminate|].
    intros D. specialize (D c eq_refl eq_refl). unfold targets. cbn [has bind]. rewrite !vmem_get, !item_get, vget_same, vget_other, B by discriminate. cbn [bind].
    unfold ungroup_targets in U. injection U as <-. unfold group_targets. cbn [elements bind]. destruct D as [N F]. rewrite (group_ungroup c [] N F). cbn [bind app].
    rewrite (same_groups_refl c (conj N F)). reflexivity.
  - injection H as <-. exists d. split; [reflexivity|]. split; [apply only_refl|]. split; [exact T|]. split; [discriminate|]. intros _. unfold targets. cbn [has bind]. now rewrite !vmem_get, T, B.
Qed.

(** ** How long a signal lasts *)
Lemma fold_sum l : forall a, fold_left Z.add l a = a + fold_left Z.add l 0.
Proof. induction l as [|z l IH]; intros a; cbn [fold_left]; [lia|]. rewrite (IH (a + z)), (IH (0 + z)). lia. Qed.
Lemma intervals_total l t : intervals_last l t -> forall ds, mapM (fun i => bind (item "duration" i) (fun d => parse_duration (duration_arg d))) l = Ok ds -> fold_left Z.add ds 0 = t.
Proof.
  induction 1 as [|d v z l t G O L IH]; intros ds H; cbn [mapM] in H; [now injection H as <-|]. apply bind_ok in H as (y & Y & H). apply bind_ok in H as (ys & M & H). injection H as <-.
  rewrite item_get, G in Y. cbn [bind] in Y. cbn [fold_left]. rewrite fold_sum, (IH ys M). assert (y = z); [|lia]. destruct v; cbn [one_duration duration_arg] in O, Y; try contradiction; [congruence|]. cbn in Y. congruence.
Qed.
Lemma lasts_total s t z : signal_lasts s t -> signal_total s = Ok z -> z = t.
Proof.
  intros (d & l & -> & G & L) H. unfold signal_total in H. rewrite item_get, G in H. cbn [bind elements] in H. apply bind_ok in H as (ds & M & H). injection H as <-. exact (intervals_total l t L ds M).
Qed.

(** ** All checks *)
Record unmoved (e : val) : Prop := {
  un_duration : event_duration e = Ok e;
  un_simple : each "event_signals" simple_signal e = Ok e;
  un_current : each "event_signals" (current_value e) e = Ok e;
  un_ns : each "event_signals" (measured add_ns) e = Ok e;
  un_response : response_required e = Ok e;
  un_created : forall now, created_date_time now e = Ok e;
  un_targets : targets e = Ok e }.
Definition tidy_targets (d : vdict) : Prop := forall b, vget "targets" d = None -> vget "targets_by_type" d = Some (VDict b) -> tidy_groups b.

Lemma event_settles now e0 e1 e2 e3 e4 e5 e6 e7 :
  event_duration e0 = Ok e1 -> each "event_signals" simple_signal e1 = Ok e2 -> each "event_signals" (current_value e2) e2 = Ok e3 -> each "event_signals" (measured add_ns) e3 = Ok e4 ->
  response_required e4 = Ok e5 -> created_date_time now e5 = Ok e6 -> targets e6 = Ok e7 ->
  exists d f, e0 = VDict d /\ e7 = VDict f /\ settled_event now d f /\ (tidy_targets d -> unmoved (VDict f)).
Proof.
  intros H1 H2 H3 H4 H5 H6 H7. destruct (event_duration_ok _ _ H1) as (d0 & d1 & ss & ds & x & -> & -> & O1 & S1 & L1 & X).
  pose proof (lasting_totals _ _ _ _ L1) as T. assert (SD : forall s, In s ss -> exists d, s = VDict d).
  { intros s I. apply In_nth_error in I as (i & I). destruct (mapM_nth _ _ _ T) as [_ N]. destruct (N i s I) as (z & _ & Z). now apply signal_total_dict in Z. }
  destruct (each_signals _ _ _ _ S1 H2) as (d2 & ss2 & -> & M2 & S2 & O2). pose proof (mapM_same _ _ simple_signal_keeps _ M2) as ->.
  destruct (each_signals _ _ _ _ S2 H3) as (d3 & ss3 & -> & M3 & S3 & O3). destruct (each_signals _ _ _ _ S3 H4) as (d4 & ss4 & -> & M4 & S4 & O4).
  destruct (response_required_ok _ _ H5) as (d5 & -> & O5 & R5 & F5). destruct (created_date_time_ok _ _ _ H6) as (d6 & c & g & -> & O6 & G5 & G6 & OC & C6 & F6).
  destruct (targets_ok _ _ H7) as (d7 & -> & O7 & T7 & A7 & F7).
  exists d0, d7. split; [reflexivity|]. split; [reflexivity|].
  assert (K : forall k, ~ In k ["active_period"; "event_signals"; "response_required"; "event_descriptor"; "targets"] -> vget k d7 = vget k d0).
  { intros k NI. cbn in NI. rewrite O7, O6, O5, O4, O3, O2, O1 by (intros ->; tauto). reflexivity. }
  assert (KT : vget "targets" d6 = vget "targets" d0) by (rewrite O6, O5, O4, O3, O2, O1 by discriminate; reflexivity).
  assert (KB : vget "targets_by_type" d6 = vget "targets_by_type" d0) by (rewrite O6, O5, O4, O3, O2, O1 by discriminate; reflexivity).
  assert (KR : vget "response_required" d4 = vget "response_required" d0) by (rewrite O4, O3, O2, O1 by discriminate; reflexivity).
  assert (KD : vget "event_descriptor" d5 = vget "event_descriptor" d0) by (rewrite O5, O4, O3, O2, O1 by discriminate; reflexivity).
  assert (KP : vget "active_period" d7 = vget "active_period" d1) by (rewrite O7, O6, O5, O4, O3, O2 by discriminate; reflexivity).
  assert (KS : vget "event_signals" d7 = vget "event_signals" d4) by (rewrite O7, O6, O5 by discriminate; reflexivity).
  (* one signal *)
  assert (Q : forall i s, nth_error ss i = Some s -> exists s4, nth_error ss4 i = Some s4 /\ signal_total s4 = signal_total s /\ simple_signal s4 = Ok s4
     /\ (forall ev, status_of ev = status_of (VDict d2) -> current_value ev s4 = Ok s4) /\ measured add_ns s4 = Ok s4).
  { intros i s I. destruct (SD s (nth_error_In _ _ I)) as (a & ->). destruct (mapM_nth _ _ _ M2) as [_ N2]. destruct (N2 i _ I) as (s2 & I2 & E2).
    destruct (mapM_nth _ _ _ M3) as [_ N3]. destruct (N3 i _ I) as (s3 & I3 & E3). destruct (current_value_ok _ _ _ E3) as (a3 & -> & OA & FA).
    destruct (mapM_nth _ _ _ M4) as [_ N4]. destruct (N4 i _ I3) as (s4 & I4 & E4). destruct (measured_ok add_ns a3 s4 add_ns_some E4) as (a4 & -> & OB & FB).
    exists (VDict a4). split; [exact I4|]. split; [apply signal_total_get; rewrite OB, OA by discriminate; reflexivity|].
    split; [apply (simple_signal_again a a4) in E2; [exact E2|rewrite OB, OA by discriminate; reflexivity..]|].
    split; [intros ev EV; apply FA; [exact EV|now rewrite OB by discriminate..]|]. apply FB. exact add_ns_again. }
  destruct (mapM_nth _ _ _ M3) as [L3 _]. destruct (mapM_nth _ _ _ M4) as [L4 _].
  assert (Q' : forall s4, In s4 ss4 -> exists s, In s ss /\ signal_total s4 = signal_total s /\ simple_signal s4 = Ok s4 /\ (forall ev, status_of ev = status_of (VDict d2) -> current_value ev s4 = Ok s4) /\ measured add_ns s4 = Ok s4).
  { intros s4 I. apply In_nth_error in I as (i & I). destruct (nth_error ss i) as [s|] eqn:E.
    - destruct (Q i s E) as (s4' & I4 & R). rewrite I in I4. injection I4 as <-. exists s. split; [eapply nth_error_In; eassumption|exact R].
    - apply nth_error_None in E. assert (i < length ss4)%nat by (apply nth_error_Some; congruence). lia. }
  assert (S7 : signals d7 ss4) by (apply (signals_get d4); [exact KS|exact S4]).
  assert (T7' : mapM signal_total ss4 = Ok ds).
  { rewrite <- T. apply mapM_same_results; [congruence|]. intros i s s4 I I4. destruct (Q i s I) as (s' & I' & E & _). congruence. }
  split.
  - split.
    + rewrite O7, O6 by discriminate. now rewrite R5, KR.
    + exists c, g. split; [congruence|]. split; [rewrite O7 by discriminate; exact G6|exact C6].
    + rewrite KT, KB in T7. exact T7.
    + rewrite KT, KB in A7. exact A7.
    + intros s rest G t ST. destruct S1 as (l & GL & EL & _). rewrite O1, G in GL by discriminate. injection GL as <-. cbn in EL. injection EL as <-.
      cbn [mapM] in T. apply bind_ok in T as (z & Z & T). apply bind_ok in T as (zs & ZS & T). injection T as <-. pose proof (lasts_total s t z ST Z) as ->.
      destruct X as (y & -> & FY); [discriminate|]. inversion FY as [|? ? Y1 Y2]; subst. destruct (lasting_period _ _ _ _ L1) as (p & P & D).
      exists p. rewrite KP. split; [exact P|]. split; [exact D|]. intros s' t' I' ST'. apply In_nth_error in I' as (i & I'). destruct (mapM_nth _ _ _ ZS) as [_ NZ]. destruct (NZ i s' I') as (z' & IZ & Z').
      pose proof (lasts_total s' t' z' ST' Z') as ->. rewrite Forall_forall in Y2. symmetry. apply Y2. eapply nth_error_In. exact IZ.
  - intros TT. split.
    + apply (event_duration_fixed d7 ss4 ds x S7). destruct L1 as [LP _ LA]. split; [rewrite KP; exact LP|exact T7'|exact LA].
    + apply (each_signals_fixed _ _ ss4 S7). apply mapM_fixed. intros s I. now destruct (Q' s I) as (_ & _ & _ & R & _).
    + apply (each_signals_fixed _ _ ss4 S7). apply mapM_fixed. intros s I. destruct (Q' s I) as (_ & _ & _ & _ & R & _). apply R.
      unfold status_of. rewrite !item_get. rewrite O7 by discriminate. rewrite G6. rewrite <- O3, <- O4, <- O5 by discriminate. rewrite G5. cbn [bind]. rewrite !item_get. now rewrite OC by discriminate.
    + apply (each_signals_fixed _ _ ss4 S7). apply mapM_fixed. intros s I. now destruct (Q' s I) as (_ & _ & _ & _ & _ & R).
    + apply F5. now rewrite O7, O6 by discriminate.
    + intros now'. apply F6. now rewrite O7 by discriminate.
    + apply F7. intros b B B'. apply TT; congruence.
Qed.

Lemma preflight_events_ok now es fs : preflight_events now es = Ok fs -> length fs = length es /\ forall i e, nth_error es i = Some e ->
  exists d f, e = VDict d /\ nth_error fs i = Some (VDict f) /\ settled_event (now i) d f /\ (tidy_targets d -> unmoved (VDict f)).
Proof.
  unfold preflight_events. intros H. apply bind_ok in H as (es5 & H & H'). apply bind_ok in H' as (es6 & M6 & M7). unfold distribute_checks in H. cbn [foldM] in H.
  apply bind_ok in H as (es1 & M1 & H). apply bind_ok in H as (es2 & M2 & H). apply bind_ok in H as (es3 & M3 & H). apply bind_ok in H as (es4 & M4 & H). apply bind_ok in H as (es5' & M5 & H). injection H as ->.
  destruct (mapM_nth _ _ _ M1) as [L1 N1]. destruct (mapM_nth _ _ _ M2) as [L2 N2]. destruct (mapM_nth _ _ _ M3) as [L3 N3]. destruct (mapM_nth _ _ _ M4) as [L4 N4]. destruct (mapM_nth _ _ _ M5) as [L5 N5].
  destruct (mapMi_nth _ _ _ _ M6) as [L6 N6]. destruct (mapM_nth _ _ _ M7) as [L7 N7]. split; [congruence|]. intros i e0 I0.
  destruct (N1 i e0 I0) as (e1 & I1 & E1). destruct (N2 i e1 I1) as (e2 & I2 & E2). destruct (N3 i e2 I2) as (e3 & I3 & E3). destruct (N4 i e3 I3) as (e4 & I4 & E4). destruct (N5 i e4 I4) as (e5 & I5 & E5).
  destruct (N6 i e5 I5) as (e6 & I6 & E6). destruct (N7 i e6 I6) as (e7 & I7 & E7).
  destruct (event_settles (now i) e0 e1 e2 e3 e4 e5 e6 e7 E1 E2 E3 E4 E5 E6 E7) as (d & f & -> & -> & R). exists d, f. split; [reflexivity|]. split; [exact I7|exact R].
Qed.
Lemma preflight_events_unmoved now fs : Forall unmoved fs -> preflight_events now fs = Ok fs.
Proof.
  intros U. rewrite Forall_forall in U. unfold preflight_events, distribute_checks. cbn [foldM].
  rewrite (mapM_fixed event_duration fs) by (intros e I; apply (un_duration e (U e I))). cbn [bind].
  rewrite (mapM_fixed (each "event_signals" simple_signal) fs) by (intros e I; apply (un_simple e (U e I))). cbn [bind].
  rewrite (mapM_fixed (fun e => each "event_signals" (current_value e) e) fs) by (intros e I; apply (un_current e (U e I))). cbn [bind].
  rewrite (mapM_fixed (each "event_signals" (measured add_ns)) fs) by (intros e I; apply (un_ns e (U e I))). cbn [bind].
  rewrite (mapM_fixed response_required fs) by (intros e I; apply (un_response e (U e I))). cbn [bind].
  rewrite (mapMi_fixed (fun i => created_date_time (now i)) fs 0%nat) by (intros i e I; apply (un_created e (U e I))). cbn [bind].
  apply mapM_fixed. intros e I. apply (un_targets e (U e I)).
Qed.

(** ** Reports *)
Lemma customUnit_unnamed : get String.eqb "customUnit" measurement_descriptions = None. Proof. reflexivity. Qed.
Lemma power_given_same m n : power_given m = Ok n -> n = m /\ power_given m = Ok m.
Proof.
  intros H. assert (E : n = m); [|subst n; split; [reflexivity|exact H]]. unfold power_given in H. apply bind_ok in H as (b & _ & H). destruct b; [|discriminate]. apply bind_ok in H as (a & _ & H).
  apply bind_ok in H as (v & _ & H). destruct v; [|discriminate]. apply bind_ok in H as (c & _ & H). destruct c; [|discriminate]. apply bind_ok in H as (z & _ & H). destruct z; congruence.
Qed.
Lemma power_given_get d e : vget "power_attributes" e = vget "power_attributes" d -> power_given (VDict d) = Ok (VDict d) -> power_given (VDict e) = Ok (VDict e).
Proof.
  intros G H. unfold power_given in *. cbn [has bind] in *. rewrite !vmem_get, !item_get, G in *. destruct (vget "power_attributes" d) as [a|]; [|discriminate]. cbn [bind] in *.
  apply bind_ok in H as (v & V & H). rewrite V. cbn [bind]. destruct v; [|discriminate]. apply bind_ok in H as (c & C & H). rewrite C. cbn [bind]. destruct c; [|discriminate]. apply bind_ok in H as (z & Z & H). rewrite Z. cbn [bind]. destruct z; congruence.
Qed.
(** Dicts that are the same for the checks of a measurement. *)
Definition same_measurement (d e : vdict) : Prop := forall k, In k ["name"; "description"; "unit"; "power_attributes"] -> vget k e = vget k d.
Lemma validate_get d e : same_measurement d e -> validate_measurement (VDict d) = Ok (VDict d) -> validate_measurement (VDict e) = Ok (VDict e).
Proof.
  intros S H. assert (GN := S "name" ltac:(cbn; tauto)). assert (GD := S "description" ltac:(cbn; tauto)). assert (GU := S "unit" ltac:(cbn; tauto)). assert (GP := S "power_attributes" ltac:(cbn; tauto)).
  unfold validate_measurement in *. cbn [has bind] in *. rewrite !vmem_get, !item_get in *. rewrite GN, GD, GU. destruct (vget "name" d) as [na|] eqn:NA; [|discriminate].
  destruct (vget "description" d) as [de|] eqn:DE; [|discriminate]. destruct (vget "unit" d) as [un|] eqn:UN; [|discriminate]. cbn [negb bind] in *. destruct na as [|b|z|t|n|t|z|l|x]; try discriminate.
  destruct (get String.eqb n measurement_descriptions) as [req|] eqn:RQ.
  - destruct de as [|b|z|t|s|t|z|l|x]; try discriminate. destruct (String.eqb s req) eqn:SR; cbn [bind] in *.
    + destruct (get String.eqb n acceptable_units) as [us|]; [|discriminate]. destruct (existsb _ us); [|discriminate]. cbn [bind] in *. destruct (contains "power" n); [|reflexivity]. exact (power_given_get d e GP H).
    + exfalso. destruct (String.eqb (lower s) (lower req)); [|discriminate]. cbn [bind put] in H. destruct (get String.eqb n acceptable_units) as [us|]; [|discriminate]. destruct (existsb _ us); [|discriminate]. cbn [bind] in H.
      assert (E : vset "description" (VStr req) d = d).
      { destruct (contains "power" n); [apply power_given_same in H as [H _]|]; now injection H. }
      rewrite <- E in DE. rewrite vget_same in DE. injection DE as ->. now rewrite String.eqb_refl in SR.
  - destruct (String.eqb_spec n "customUnit") as [->|NC]; cbn [bind] in *.
    + destruct (contains "power" "customUnit"); [exact (power_given_get d e GP H)|reflexivity].
    + exfalso. cbn [put] in H. assert (E : vset "name" (VStr "customUnit") d = d).
      { destruct (contains "power" n); [apply power_given_same in H as [H _]|]; now injection H. }
      rewrite <- E in NA. rewrite vget_same in NA. injection NA as <-. now apply NC.
Qed.
Lemma validate_again m n : validate_measurement m = Ok n -> validate_measurement n = Ok n.
Proof.
  intros H. unfold validate_measurement in H. apply bind_ok in H as (hn & HN & H). destruct hn; [|discriminate]. cbn [negb] in H. apply bind_ok in H as (hd & HD & H). destruct hd; [|discriminate]. cbn [negb] in H.
  apply bind_ok in H as (hu & HU & H). destruct hu; [|discriminate]. cbn [negb] in H. apply bind_ok in H as (na & NA & H). apply bind_ok in H as (de & DE & H). apply bind_ok in H as (un & UN & H).
  apply item_ok in NA as (d & -> & NA). rewrite item_get in DE, UN. destruct (vget "description" d) as [de'|] eqn:D; [|discriminate]. injection DE as ->. destruct (vget "unit" d) as [un'|] eqn:U; [|discriminate]. injection UN as ->.
  destruct na as [|b|z|t|s|t|z|l|x]; try discriminate.
  destruct (get String.eqb s measurement_descriptions) as [req|] eqn:RQ.
  - destruct de as [|b|z|t|s'|t|z|l|x]; try discriminate. apply bind_ok in H as (m' & H & P). apply bind_ok in H as (m'' & H & A).
    destruct (get String.eqb s acceptable_units) as [us|] eqn:AU; [|discriminate]. destruct (existsb (fun u => the_text u un) us) eqn:EX; [|discriminate]. injection A as ->.
    assert (M : exists e, m' = VDict e /\ vget "description" e = Some (VStr req) /\ vget "name" e = Some (VStr s) /\ vget "unit" e = Some un).
    { destruct (String.eqb_spec s' req) as [->|NE]; [injection H as <-; now exists d|]. destruct (String.eqb (lower s') (lower req)); [|discriminate]. injection H as <-. eexists. split; [reflexivity|].
      split; [apply vget_same|]. split; rewrite vget_other by discriminate; assumption. }
    destruct M as (e & -> & ED & EN & EU). assert (PW : n = VDict e /\ (contains "power" s = true -> power_given (VDict e) = Ok (VDict e))).
    { destruct (contains "power" s); [apply power_given_same in P as [-> P]; auto|injection P as <-; split; [reflexivity|discriminate]]. }
    destruct PW as [-> PW]. unfold validate_measurement. cbn [has bind]. rewrite !vmem_get, !item_get, EN, ED, EU. cbn [negb bind]. rewrite RQ, String.eqb_refl. cbn [bind]. rewrite AU, EX. cbn [bind]. destruct (contains "power" s); auto.
  - cbn [bind] in H. destruct (String.eqb_spec s "customUnit") as [->|NC].
    + assert (n = VDict d) as ->. { destruct (contains "power" "customUnit"); [apply power_given_same in H as [-> _]; reflexivity|now injection H]. }
      unfold validate_measurement. cbn [has bind]. rewrite !vmem_get, !item_get, NA, D, U. cbn [negb bind]. rewrite RQ. cbn [bind]. rewrite String.eqb_refl. reflexivity.
    + cbn [put] in H. assert (n = VDict (vset "name" (VStr "customUnit") d)) as ->. { destruct (contains "power" s); [apply power_given_same in H as [-> _]; reflexivity|now injection H]. }
      unfold validate_measurement. cbn [has bind]. rewrite !vmem_get, !item_get, vget_same, !vget_other, D, U by discriminate. cbn [negb bind]. rewrite customUnit_unnamed, String.eqb_refl. reflexivity.
Qed.
Lemma validate_some m n : validate_measurement m = Ok n -> exists d, n = VDict d.
Proof.
  intros H. apply validate_again in H. unfold validate_measurement in H. apply bind_ok in H as (hn & HN & H). destruct hn; [|discriminate]. cbn [negb] in H. apply bind_ok in H as (hd & HD & H). destruct hd; [|discriminate]. cbn [negb] in H.
  apply bind_ok in H as (hu & HU & H). destruct hu; [|discriminate]. cbn [negb] in H. apply bind_ok in H as (na & NA & H). apply item_ok in NA as (d & -> & _). now exists d.
Qed.
Lemma vset_twice k x y d : vset k y (vset k x d) = vset k y d.
Proof.
  unfold vset. induction d as [|[a b] d IH]; cbn [set]; [now rewrite String.eqb_refl|]. destruct (String.eqb_spec k a) as [->|N]; cbn [set].
  - now rewrite String.eqb_refl.
  - destruct (String.eqb_spec k a); [contradiction|]. now rewrite IH.
Qed.
Definition check_measurement (m : val) : result val := bind (validate_measurement m) add_ns.
Lemma check_measurement_ok m n : check_measurement m = Ok n -> (exists d, n = VDict d) /\ validate_measurement n = Ok n /\ add_ns n = Ok n.
Proof.
  intros H. apply bind_ok in H as (y & V & H). destruct (add_ns_some _ _ H) as (d & ->). split; [now exists d|]. split; [|exact (add_ns_again _ _ H)].
  apply validate_again in V. unfold add_ns in H. apply bind_ok in H as (na & I & H). apply item_ok in I as (e & -> & G). destruct na as [|b|z|t|s|t|z|l|x]; try discriminate.
  destruct (get String.eqb s Measurements.measurement_namespaces) as [ns|]; [|discriminate]. cbn [put] in H. injection H as <-. apply (validate_get e); [|exact V].
  intros k K. apply vget_other. intros ->. cbn in K. intuition discriminate.
Qed.
Lemma measured_twice f g x y z : (forall m n, f m = Ok n -> exists d, n = VDict d) -> measured f x = Ok y -> measured g y = Ok z -> measured (fun m => bind (f m) g) x = Ok z.
Proof.
  intros FD H G. unfold measured in *. apply bind_ok in H as (h & HH & H). rewrite HH. cbn [bind]. destruct h.
  - apply bind_ok in H as (m & I & H). rewrite I. cbn [bind]. apply item_ok in I as (d & -> & I).
    assert (C : (m = VNone /\ y = VDict d) \/ (m <> VNone /\ exists n, f m = Ok n /\ y = VDict (vset "measurement" n d))).
    { destruct m; [left; now injection H as <-|..]; right; apply bind_ok in H as (n & F & H); injection H as <-; split; try discriminate; now exists n. }
    clear H. destruct C as [[-> ->]|(NN & n & F & ->)].
    + cbn [has bind] in G. rewrite vmem_get, item_get, I in G. cbn [bind] in G. exact G.
    + cbn [has bind] in G. rewrite vmem_get, item_get, vget_same in G. cbn [bind] in G. destruct (FD m n F) as (a & ->). apply bind_ok in G as (n' & N & G). injection G as <-. cbn [put]. rewrite vset_twice.
      destruct m; [contradiction|..]; rewrite F; cbn [bind]; rewrite N; reflexivity.
  - injection H as <-. rewrite HH in G. cbn [bind] in G. exact G.
Qed.
Lemma measured_settled x z : measured check_measurement x = Ok z -> measured validate_measurement z = Ok z /\ measured add_ns z = Ok z.
Proof.
  intros H. destruct x as [|b|i|t|s|t|i|l|d]; try discriminate.
  - unfold measured in *. cbn [has bind] in *. destruct (contains "measurement" s) eqn:C; [discriminate|]. injection H as <-. cbn [has bind]. now rewrite C.
  - unfold measured in *. cbn [has bind] in *. destruct (existsb _ l) eqn:C; [discriminate|]. injection H as <-. cbn [has bind]. now rewrite C.
  - apply measured_ok in H as (e & -> & _ & G); [|intros m n C; now apply check_measurement_ok in C]. split; apply G; intros m n C; now apply check_measurement_ok in C.
Qed.
Lemma each_ok k f d w : each k f (VDict d) = Ok w -> exists l xs ys, vget k d = Some l /\ elements l = Ok xs /\ mapM f xs = Ok ys /\
  ((l = VList xs /\ w = VDict (vset k (VList ys) d)) \/ (w = VDict d /\ (forall ys, l <> VList ys) /\ forall x, In x xs -> exists s, x = VStr s)).
Proof.
  intros H. unfold each in H. apply bind_ok in H as (l & I & H). rewrite item_get in I. destruct (vget k d) as [l'|]; [|discriminate]. injection I as ->. apply bind_ok in H as (xs & E & H). apply bind_ok in H as (ys & M & H). injection H as <-.
  exists l, xs, ys. split; [reflexivity|]. split; [exact E|]. split; [exact M|]. destruct l as [|b|i|t|s|t|i|l|x]; cbn in E; try discriminate; injection E as <-.
  - right. split; [reflexivity|]. split; [discriminate|]. intros x J. apply in_map_iff in J as (c & <- & _). eexists. reflexivity.
  - left. split; reflexivity.
  - right. split; [reflexivity|]. split; [discriminate|]. intros y J. apply in_map_iff in J as (c & <- & _). eexists. reflexivity.
Qed.
Lemma measured_text f s w : measured f (VStr s) = Ok w -> w = VStr s /\ forall g, measured g (VStr s) = Ok (VStr s).
Proof. unfold measured. cbn [has bind]. destruct (contains "measurement" s); [discriminate|]. intros [= <-]. now split. Qed.
Lemma measured_texts f g xs ys : (forall x, In x xs -> exists s, x = VStr s) -> mapM (measured f) xs = Ok ys -> mapM (measured g) xs = Ok xs.
Proof.
  intros T M. apply mapM_fixed. intros x I. destruct (T x I) as (s & ->). apply In_nth_error in I as (i & I). destruct (mapM_nth _ _ _ M) as [_ N]. destruct (N i _ I) as (y & _ & Y). now apply measured_text in Y.
Qed.
Lemma descriptions_settled d w1 w2 : each "report_descriptions" (measured validate_measurement) (VDict d) = Ok w1 -> each "report_descriptions" (measured add_ns) w1 = Ok w2 ->
  exists e, w2 = VDict e /\ only "report_descriptions" d e /\ each "report_descriptions" (measured validate_measurement) (VDict e) = Ok (VDict e) /\ each "report_descriptions" (measured add_ns) (VDict e) = Ok (VDict e).
Proof.
  intros H1 H2. apply each_ok in H1 as (l & xs & ys & G & E & M & [[-> ->]|(-> & NL & T)]).
  - apply each_ok in H2 as (l' & ys' & zs & G' & E' & M' & C). rewrite vget_same in G'. injection G' as <-. cbn in E'. injection E' as <-.
    destruct C as [[_ ->]|(_ & NL & _)]; [|now destruct (NL ys)]. rewrite vset_twice. eexists. split; [reflexivity|]. split; [apply only_set|].
    assert (Z : forall z, In z zs -> measured validate_measurement z = Ok z /\ measured add_ns z = Ok z).
    { intros z I. apply (mapM_back _ _ _ _ M') in I as (y & I & Y). apply (mapM_back _ _ _ _ M) in I as (x & _ & X). apply (measured_settled x). exact (measured_twice _ _ x y z validate_some X Y). }
    split; apply (each_fixed _ _ _ (VList zs)); try apply vget_same; try (now exists zs); intros xs' [= <-]; apply mapM_fixed; intros z I; now apply Z.
  - apply each_ok in H2 as (l' & xs' & zs & G' & E' & M' & C). rewrite G in G'. injection G' as <-. rewrite E in E'. injection E' as <-.
    destruct C as [[-> _]|(-> & _ & _)]; [now destruct (NL xs)|]. exists d. split; [reflexivity|]. split; [apply only_refl|].
    split; apply (each_fixed _ _ _ l G); try (now exists xs); intros xs' E'; rewrite E in E'; injection E' as <-; [exact (measured_texts _ _ xs ys T M)|exact (measured_texts _ _ xs ys T M)].
Qed.
Lemma report_name_ok v w : report_name v = Ok w -> exists d e, v = VDict d /\ w = VDict e /\ only "report_name" d e /\ forall f, vget "report_name" f = vget "report_name" e -> report_name (VDict f) = Ok (VDict f).
Proof.
  intros H. unfold report_name in H. apply bind_ok in H as (na & I & H). apply item_ok in I as (d & -> & G). exists d.
  assert (U : w = VDict d -> (forall f, vget "report_name" f = vget "report_name" d -> report_name (VDict f) = Ok (VDict f)) -> exists e, VDict d = VDict d /\ w = VDict e /\ only "report_name" d e /\ forall f, vget "report_name" f = vget "report_name" e -> report_name (VDict f) = Ok (VDict f)).
  { intros -> F. exists d. split; [reflexivity|]. split; [reflexivity|]. split; [apply only_refl|exact F]. }
  destruct na as [|b|z|t|s|t|z|l|x]; try (injection H as <-; apply U; [reflexivity|]; intros f F; unfold report_name; rewrite item_get, F, G; reflexivity).
  destruct (inb s REPORT_NAME_values && negb (startswith "METADATA" s)) eqn:C; injection H as <-.
  - eexists. split; [reflexivity|]. split; [reflexivity|]. split; [apply only_set|]. intros f F. rewrite vget_same in F. unfold report_name. rewrite item_get, F. cbn [bind]. match goal with |- context [startswith "METADATA" ?x] => change (startswith "METADATA" x) with true end. cbn [negb]. now rewrite andb_false_r.
  - apply U; [reflexivity|]. intros f F. unfold report_name. rewrite item_get, F, G. cbn [bind]. now rewrite C.
Qed.
Lemma preflight_report_again r s : preflight_report r = Ok s -> preflight_report s = Ok s.
Proof.
  unfold preflight_report. intros H. apply bind_ok in H as (r1 & H1 & H). apply bind_ok in H as (r2 & H2 & H3). apply report_name_ok in H1 as (d & e & -> & -> & _ & F).
  destruct (descriptions_settled e r2 s H2 H3) as (g & -> & O & V & A). rewrite F by (apply O; discriminate). cbn [bind]. rewrite V. cbn [bind]. exact A.
Qed.

(** ** Messages *)
Lemma reports_again now now' p q : preflight_message now "oadrRegisterReport" p = Ok q -> preflight_message now' "oadrRegisterReport" q = Ok q.
Proof.
  unfold preflight_message. cbn [String.eqb Ascii.eqb Bool.eqb]. intros H. apply bind_ok in H as (l & I & H). rewrite item_get in I. destruct (vget "reports" p) as [l'|] eqn:G; [|discriminate]. injection I as ->.
  apply bind_ok in H as (rs & E & H). apply bind_ok in H as (ss & M & H). injection H as <-.
  assert (F : forall s, In s ss -> preflight_report s = Ok s) by (intros s J; apply (mapM_back _ _ _ _ M) in J as (r & _ & R); exact (preflight_report_again r s R)).
  assert (D : forall r s, preflight_report r = Ok s -> exists d, r = VDict d). { intros r s R. apply bind_ok in R as (r1 & R & _). apply report_name_ok in R as (d & e & -> & _). now exists d. }
  destruct l as [|b|z|t|s|t|z|l|x]; cbn in E; try discriminate; injection E as <-.
  - destruct s as [|c s]; [|cbn in M; discriminate]. rewrite item_get, G. reflexivity.
  - rewrite item_get, vget_same. cbn [bind elements]. rewrite (mapM_fixed _ _ F). cbn [bind]. now rewrite vset_twice.
  - destruct x as [|[k v] x]; [|cbn in M; discriminate]. rewrite item_get, G. reflexivity.
Qed.
Lemma events_settled now p q es : vget "events" p = Some (VList es) -> preflight_message now "oadrDistributeEvent" p = Ok q ->
  exists fs, vget "events" q = Some (VList fs) /\ length fs = length es /\ forall i e, nth_error es i = Some e -> exists d f, e = VDict d /\ nth_error fs i = Some (VDict f) /\ settled_event (now i) d f.
Proof.
  intros G. unfold preflight_message. cbn [String.eqb Ascii.eqb Bool.eqb]. rewrite item_get, G. cbn [bind elements]. intros H. apply bind_ok in H as (fs & P & H). injection H as <-.
  exists fs. split; [apply vget_same|]. destruct (preflight_events_ok _ _ _ P) as [L N]. split; [exact L|]. intros i e I. destruct (N i e I) as (d & f & -> & IF & S & _). now exists d, f.
Qed.
Lemma events_again now now' p q : (forall es d, vget "events" p = Some (VList es) -> In (VDict d) es -> tidy_targets d) ->
  preflight_message now "oadrDistributeEvent" p = Ok q -> preflight_message now' "oadrDistributeEvent" q = Ok q.
Proof.
  intros T. unfold preflight_message. cbn [String.eqb Ascii.eqb Bool.eqb]. intros H. apply bind_ok in H as (l & I & H). rewrite item_get in I. destruct (vget "events" p) as [l'|] eqn:G; [|discriminate]. injection I as ->.
  apply bind_ok in H as (es & E & H). apply bind_ok in H as (fs & P & H). injection H as <-. destruct (preflight_events_ok _ _ _ P) as [L N].
  destruct l as [|b|z|t|s|t|z|l|x]; cbn in E; try discriminate; injection E as <-.
  - destruct s as [|c s]; [rewrite item_get, G; reflexivity|]. destruct (N O _ eq_refl) as (d & f & D & _). discriminate.
  - rewrite item_get, vget_same. cbn [bind elements]. rewrite preflight_events_unmoved; [cbn [bind]; now rewrite vset_twice|]. apply Forall_forall. intros f J. apply In_nth_error in J as (i & J).
    destruct (nth_error l i) as [e|] eqn:EI.
    + destruct (N i e EI) as (d & f' & -> & IF & _ & U). rewrite J in IF. injection IF as ->. apply U. apply (T l d eq_refl). eapply nth_error_In. exact EI.
    + apply nth_error_None in EI. assert (i < length fs)%nat by (apply nth_error_Some; congruence). lia.
  - destruct x as [|[k v] x]; [rewrite item_get, G; reflexivity|]. destruct (N O _ eq_refl) as (d & f & D & _). discriminate.
Qed.
