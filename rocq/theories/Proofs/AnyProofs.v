(** Lemmas for C86: templates filled with any payload. *)
From Coq Require Import ZArith String Ascii List Bool Lia.
From Verif.Base Require Import Result Dict PyStr ListExtra.
From Verif.Model Require Import Text Duration DateTime Normalize Xml XmlText Jinja.
From Verif.Spec Require Import TextSpec XmlTextSpec PayloadSpec PayloadsAnySpec.
From Verif.Proofs Require Import TextProofs XmlTextProofs TemplateProofs PayloadProofs.
Import ListNotations.
Local Open Scope string_scope.

Definition expr_eqb (a b : expr) : bool := if expr_eq_dec a b then true else false.
Lemma expr_eqb_eq a b : expr_eqb a b = true -> a = b.
Proof. unfold expr_eqb. destruct (expr_eq_dec a b); [auto|discriminate]. Qed.

(** ** Checking a template

    [g]: expressions that are measurements here.  [never e]: [e] is not true
    in an orderly payload; [measures e]: it says that its measurement is. *)
Definition plain_part (p : part) : bool := match p with PLit s => nameb s | POut _ => false end.
Definition of_measurement (g : list expr) (k : string) (p : part) : bool :=
  match p with PLit _ => false | POut e => match e with EAttr m a => (a =? k) && existsb (expr_eqb m) g | _ => false end end.
Definition qname_sits (g : list expr) (q : qname) : bool :=
  (plain_part (q_local q) || of_measurement g "name" (q_local q)) &&
  match q_prefix q with None => true | Some p => plain_part p || of_measurement g "ns" p end.
Definition unwanted (k : string) : bool := (k =? "emix_interfaces") || (k =? "report_requests").
Definition given_of (e : expr) : option expr :=
  match e with
  | EAnd (EDefined a) (ENot (EIsNone b)) => if expr_eqb a b then Some a else None
  | _ => None
  end.
Definition never (e : expr) : bool :=
  match e with
  | EAttr _ k => unwanted k
  | _ => match given_of e with Some (EAttr _ k) => unwanted k | _ => false end
  end.
Definition measures (e : expr) : option expr :=
  match given_of e with Some (EAttr m k) => if k =? "measurement" then Some (EAttr m k) else None | _ => None end.
Fixpoint sits (g : list expr) (i : item) : bool :=
  match i with
  | IText q _ _ _ | IEmpty q _ _ => qname_sits g q
  | INode q _ _ cs => qname_sits g q && forallb (sits g) cs
  | IIf e a b => (never e || forallb (sits (match measures e with Some m => m :: g | None => g end)) a) && forallb (sits g) b
  | IFor _ _ body => forallb (sits []) body
  | IBad => false
  end.
(** The same without conditions on the payload. *)
Fixpoint stands (i : item) : bool :=
  match i with
  | IText q _ _ _ | IEmpty q _ _ => qname_sits [] q
  | INode q _ _ cs => qname_sits [] q && forallb stands cs
  | IIf _ a b => forallb stands a && forallb stands b
  | IFor _ _ body => forallb stands body
  | IBad => false
  end.

Section Any.
Variable other : val -> string.
Lemma get_in {A} k (d : list (string * A)) v : get String.eqb k d = Some v -> In (k, v) d.
Proof.
  induction d as [|[k' v'] d IH]; cbn [get]; [discriminate|]. destruct (String.eqb_spec k k') as [->|]; [intros [= ->]; now left|intros H; right; now apply IH].
Qed.

(** What holds of all values in a payload holds of all that is computed. *)
Section Values.
Variable P : val -> Prop.
Variable literal : string -> bool.
Hypothesis P_bool : forall b, P (VBool b).
Hypothesis P_int : forall z, P (VInt z).
Hypothesis P_time : forall t s, datetimeformat t = Ok s -> P (VStr s).
Hypothesis P_truth : forall b, P (VStr (show_bool b)).
Hypothesis P_duration : forall d, P (VStr (timedeltaformat d)).
Hypothesis P_shown : forall v, (forall w, v = Some w -> P w) -> P (VStr (show other v)).
Hypothesis P_literal : forall s, literal s = true -> P (VStr s).
Hypothesis P_character : forall s c, P (VStr s) -> In c (list_ascii_of_string s) -> P (VStr (String c EmptyString)).
Hypothesis P_key : forall d k v, P (VDict d) -> In (k, v) d -> P (VStr k).
Hypothesis P_loop : forall i, P (VDict [("index0", VInt i)]).

Definition tidy (c : vdict) : Prop := forall k v w, In (k, v) c -> within v w -> P w.
Definition fine_value (v : jvalue) : Prop := forall w u, v = Some w -> within w u -> P u.
Lemma fine_scalar w : match w with VDict _ | VList _ => False | _ => P w end -> fine_value (Some w).
Proof. intros S v d [= <-] H. destruct H; [|contradiction|contradiction]. destruct v; try contradiction; exact S. Qed.
Lemma fine_none : fine_value None. Proof. discriminate. Qed.
Lemma fine_this v w : fine_value v -> v = Some w -> P w.
Proof. intros F E. apply (F w w E). constructor. Qed.
Lemma filter_fine f v w : fine_value v -> apply_filter other f v = Ok w -> fine_value w.
Proof.
  intros F H. unfold apply_filter in H.
  assert (A : filter_datetime v = Ok w -> fine_value w).
  { clear H. intros H. destruct v as [[]|]; cbn [filter_datetime] in H; try (injection H as <-; exact F). destruct (datetimeformat t) as [s|] eqn:E; cbn [bind] in H; [|discriminate]. injection H as <-. apply fine_scalar. now apply (P_time t). }
  assert (B : Ok (filter_timedelta v) = Ok w -> fine_value w).
  { clear H. intros H. destruct v as [[]|]; cbn [filter_timedelta] in H; injection H as <-; try exact F. apply fine_scalar, P_duration. }
  assert (C : filter_boolean v = Ok w -> w = v \/ exists b, v = Some (VBool b) /\ w = Some (VStr (show_bool b))).
  { clear. unfold filter_boolean. destruct v as [[]|]; intros H; try discriminate H.
    - destruct b; injection H as <-; right; [now exists true|now exists false].
    - repeat match type of H with match ?x with _ => _ end = _ => destruct x; try discriminate H end; injection H as <-; now left. }
  assert (D : filter_length v = Ok w -> fine_value w).
  { clear H. intros H. destruct v as [[]|]; cbn [filter_length] in H; try discriminate H; injection H as <-; apply fine_scalar, P_int. }
  assert (E : Ok (Some (VStr (show other v))) = Ok w -> fine_value w).
  { clear H. intros H. injection H as <-. apply fine_scalar, P_shown. intros u U. now apply (fine_this v). }
  repeat match type of H with context [match ?x with _ => _ end] => is_var x; destruct x; try discriminate H end; auto.
  destruct (C H) as [->|(b & -> & ->)]; [exact F|]. apply fine_scalar, P_truth.
Qed.
Fixpoint texts_of (e : expr) : bool :=
  match e with
  | EStr s => literal s
  | EName _ | EInt _ => true
  | EAttr e _ | EFilter e _ | EDefined e | EIsNone e | ENot e => texts_of e
  | EStartswith a b | EGreater a b | EAnd a b | EOr a b => texts_of a && texts_of b
  end.
Lemma eval_fine c e v : tidy c -> texts_of e = true -> eval other c e = Ok v -> fine_value v.
Proof.
  intros T. revert v. induction e as [x|e IH a|s|z|e IH f|e IH|e IH|e IH s IHs|a IHa b IHb|e IH|a IHa b IHb|a IHa b IHb]; intros v L H; cbn [eval texts_of] in H, L;
    try (apply andb_prop in L as [L1 L2]).
  - injection H as <-. intros w d E Hd. apply get_in in E. now apply (T x w).
  - destruct (eval other c e) as [u|]; cbn [bind] in H; [|discriminate]. specialize (IH u L eq_refl). destruct u as [u|]; [|discriminate]. destruct u; cbn [attribute] in H; injection H as <-; try exact fine_none.
    intros w e' E Hd. apply get_in in E. apply (IH _ e' eq_refl). now apply (within_dict d a w).
  - injection H as <-. now apply fine_scalar, P_literal.
  - injection H as <-. apply fine_scalar, P_int.
  - destruct (eval other c e) as [u|]; cbn [bind] in H; [|discriminate]. now apply (filter_fine f u v (IH u L eq_refl)).
  - destruct (eval other c e) as [u|]; cbn [bind] in H; [|discriminate]. injection H as <-. apply fine_scalar, P_bool.
  - destruct (eval other c e) as [u|]; cbn [bind] in H; [|discriminate]. injection H as <-. apply fine_scalar, P_bool.
  - destruct (eval other c e) as [u|]; cbn [bind] in H; [|discriminate]. destruct (eval other c s) as [w|]; cbn [bind] in H; [|discriminate].
    destruct u as [[]|]; cbn [starts_with] in H; try discriminate H; destruct w as [[]|]; try discriminate H. injection H as <-. apply fine_scalar, P_bool.
  - destruct (eval other c a) as [u|]; cbn [bind] in H; [|discriminate]. destruct (eval other c b) as [w|]; cbn [bind] in H; [|discriminate].
    destruct u as [[]|]; cbn [greater] in H; try discriminate H; destruct w as [[]|]; try discriminate H. injection H as <-. apply fine_scalar, P_bool.
  - destruct (eval other c e) as [u|]; cbn [bind] in H; [|discriminate]. injection H as <-. apply fine_scalar, P_bool.
  - destruct (eval other c a) as [u|]; cbn [bind] in H; [|discriminate]. destruct (truth u); [now apply IHb|]. injection H as <-. now apply IHa.
  - destruct (eval other c a) as [u|]; cbn [bind] in H; [|discriminate]. destruct (truth u); [|now apply IHb]. injection H as <-. now apply IHa.
Qed.
Lemma iterate_fine v l u w : fine_value v -> iterate v = Ok l -> In u l -> within u w -> P w.
Proof.
  intros F H J Hd. destruct v as [v|]; [|injection H as <-; destruct J]. pose proof (fine_this _ v F eq_refl) as Pv. destruct v; cbn [iterate] in H; try discriminate H; injection H as <-.
  - apply in_map_iff in J as (x & <- & J). inversion Hd; subst. now apply (P_character s).
  - apply (F (VList l0) w eq_refl). now apply (within_list l0 u).
  - apply in_map_iff in J as ([k x] & <- & J). inversion Hd; subst. now apply (P_key d k x).
Qed.
Lemma loop_tidy c x i v : tidy c -> (forall w, within v w -> P w) -> tidy (in_loop c x i v).
Proof.
  intros T V k w u [E|[E|J]] H.
  - injection E as <- <-. now apply V.
  - injection E as <- <-. inversion H as [|? ? ? ? J K|]; subst; [apply P_loop|]. destruct J as [E|[]]. injection E as <- <-. inversion K; subst. apply P_int.
  - now apply (T k w).
Qed.

(** The texts in the elements. *)
Variable Q : string -> Prop.
Hypothesis Q_shown : forall v, (forall w, v = Some w -> P w) -> Q (show other v).
Hypothesis Q_literal : forall s, literal s = true -> Q s.
Hypothesis literal_nil : literal "" = true.
Definition part_texts (p : part) : bool := match p with PLit s => literal s | POut e => texts_of e end.
Fixpoint item_texts (i : item) : bool :=
  match i with
  | IText _ _ _ t => part_texts t
  | IEmpty _ _ _ => true
  | INode _ _ _ cs => forallb item_texts cs
  | IIf e a b => texts_of e && forallb item_texts a && forallb item_texts b
  | IFor _ e body => texts_of e && forallb item_texts body
  | IBad => true
  end.
Lemma concat_texts {A} (f : A -> outcome (list xml)) l xs : (forall a ys, In a l -> f a = Good ys -> Forall (texts_are Q) ys) -> concat_all f l = Good xs -> Forall (texts_are Q) xs.
Proof.
  revert xs. induction l as [|a l IH]; intros xs H E; cbn [concat_all] in E; [injection E as <-; constructor|]. fold (concat_all f l) in E. destruct (f a) as [ys| |] eqn:Ea; cbn [obind] in E; try discriminate.
  destruct (concat_all f l) as [zs| |]; cbn [obind] in E; try discriminate. injection E as <-. apply Forall_app. split; [apply (H a ys (or_introl eq_refl) Ea)|]. apply (IH zs); [|reflexivity]. intros b ys' J. apply H. now right.
Qed.
Lemma counted_texts {A} (f : nat -> A -> outcome (list xml)) k l xs : (forall i a ys, In a l -> f i a = Good ys -> Forall (texts_are Q) ys) -> concat_counted f k l = Good xs -> Forall (texts_are Q) xs.
Proof.
  revert k xs. induction l as [|a l IH]; intros k xs H E; cbn [concat_counted] in E; [injection E as <-; constructor|]. fold (concat_counted f (S k) l) in E. destruct (f k a) as [ys| |] eqn:Ea; cbn [obind] in E; try discriminate.
  destruct (concat_counted f (S k) l) as [zs| |] eqn:Z; cbn [obind] in E; try discriminate. injection E as <-. apply Forall_app. split; [apply (H k a ys (or_introl eq_refl) Ea)|]. apply (IH (S k) zs); [|exact Z]. intros i b ys' J. apply H. now right.
Qed.
Lemma part_fine c p s : tidy c -> part_texts p = true -> part_text other c p = Ok s -> Q s.
Proof.
  intros T L H. destruct p as [l|e]; cbn [part_texts part_text] in *; [injection H as <-; now apply Q_literal|]. destruct (eval other c e) as [v|] eqn:E; cbn [bind] in H; [|discriminate]. injection H as <-.
  apply Q_shown. intros w ->. now apply (fine_this _ w (eval_fine c e _ T L E)).
Qed.
Lemma tree_texts : forall i c xs, tidy c -> item_texts i = true -> tree other i c = Good xs -> Forall (texts_are Q) xs.
Proof.
  fix IH 1. intros i c xs T L H.
  assert (ALL : forall is c xs, (fix go (l : list item) : Prop := match l with [] => True | i :: l => (forall c xs, tidy c -> item_texts i = true -> tree other i c = Good xs -> Forall (texts_are Q) xs) /\ go l end) is ->
    tidy c -> forallb item_texts is = true -> concat_all (fun i => tree other i c) is = Good xs -> Forall (texts_are Q) xs).
  { clear. intros is c xs H T S. apply concat_texts. intros i ys J. induction is as [|k is IHi]; [destruct J|]. destruct H as [H1 H2]. cbn [forallb] in S. apply andb_prop in S as [S1 S2].
    destruct J as [<-|J]; [now apply H1|now apply IHi]. }
  destruct i as [q attrs a t|q attrs a|q attrs a cs|e a b|x e body|]; cbn [item_texts tree] in *.
  - destruct (qname_text other c q) as [w| |]; cbn [obind] in H; try discriminate. destruct (part_text other c t) as [s|] eqn:E; cbn [lift obind] in H; [|discriminate]. injection H as <-. constructor; [|constructor]. constructor; [|constructor].
    now apply (part_fine c t).
  - destruct (qname_text other c q) as [w| |]; cbn [obind] in H; try discriminate. injection H as <-. constructor; [|constructor]. constructor; [|constructor]. now apply Q_literal.
  - destruct (qname_text other c q) as [w| |]; cbn [obind] in H; try discriminate. destruct (concat_all (fun i => tree other i c) cs) as [ys| |] eqn:E; cbn [obind] in H; try discriminate. injection H as <-. constructor; [|constructor].
    constructor; [now apply Q_literal|]. apply (ALL cs c ys); auto. clear - IH. induction cs as [|i cs IHc]; [exact I|]. split; [exact (IH i)|exact IHc].
  - apply andb_prop in L as [L L2]. apply andb_prop in L as [L0 L1]. destruct (eval other c e) as [v|]; cbn [lift obind] in H; [|discriminate]. destruct (truth v).
    + apply (ALL a c xs); auto. clear - IH. induction a as [|i a IHa]; [exact I|]. split; [exact (IH i)|exact IHa].
    + apply (ALL b c xs); auto. clear - IH. induction b as [|i b IHb]; [exact I|]. split; [exact (IH i)|exact IHb].
  - apply andb_prop in L as [L0 L1]. destruct (eval other c e) as [v|] eqn:E; cbn [lift obind] in H; [|discriminate]. destruct (iterate v) as [l|] eqn:It; cbn [lift obind] in H; [|discriminate].
    revert H. apply counted_texts. intros k u ys J G. revert G. apply (ALL body); [clear - IH; induction body as [|i body IHb]; [exact I|split; [exact (IH i)|exact IHb]]| |exact L1].
    apply loop_tidy; [exact T|]. intros w. apply (iterate_fine v l u w (eval_fine c e v T L0 E) It J).
  - discriminate.
Qed.
End Values.

(** ** Orderly payloads *)
Definition orderly_value (v : val) : Prop := match v with VDict d => orderly d | _ => True end.
Definition all_orderly (c : vdict) : Prop := tidy orderly_value c.
Lemma index_orderly i : orderly_value (VDict [("index0", VInt i)]).
Proof. split; [now left|split; [now left|left; now left]]. Qed.
Lemma all_texts e : texts_of (fun _ => true) e = true.
Proof. induction e; cbn [texts_of]; try assumption; try reflexivity; now apply andb_true_intro. Qed.
Lemma eval_orderly c e v : all_orderly c -> eval other c e = Ok v -> fine_value orderly_value v.
Proof. intros T. apply (eval_fine orderly_value (fun _ => true)); try (intros; exact I); [exact T|apply all_texts]. Qed.
(** What the checks say. *)
Definition knows_measurements (g : list expr) (c : vdict) : Prop := forall m v, In m g -> eval other c m = Ok v -> exists d, v = Some (VDict d) /\ proper_measurement d.
Lemma unwanted_absent k d : unwanted k = true -> orderly d -> absent k d.
Proof. intros U (A & B & _). apply orb_prop in U as [U|U]; apply String.eqb_eq in U as ->; assumption. Qed.
Lemma attr_value c e k v : all_orderly c -> eval other c (EAttr e k) = Ok v -> v = None \/ exists d, orderly d /\ v = get String.eqb k d.
Proof.
  intros T H. cbn [eval] in H. destruct (eval other c e) as [u|] eqn:E; cbn [bind] in H; [|discriminate]. pose proof (eval_orderly c e u T E) as F. destruct u as [u|]; [|discriminate].
  destruct u; cbn [attribute] in H; injection H as <-; auto. right. exists d. split; [|reflexivity]. exact (fine_this orderly_value _ (VDict d) F eq_refl).
Qed.
Lemma given_true c e a v : given_of e = Some a -> eval other c e = Ok v -> truth v = true -> exists w, eval other c a = Ok (Some w) /\ w <> VNone.
Proof.
  intros G H T. destruct e as [| | | | | | | | | |x y|]; try discriminate G. destruct x as [| | | | |x| | | | | |]; try discriminate G. destruct y as [| | | | | | | | |y| |]; try discriminate G.
  destruct y as [| | | | | |y| | | | |]; try discriminate G. cbn [given_of] in G. destruct (expr_eqb x y) eqn:E; [|discriminate]. injection G as <-. apply expr_eqb_eq in E as <-. cbn [eval] in H.
  destruct (eval other c x) as [u|]; cbn [bind] in H; [|discriminate]. destruct u as [w|]; cbn [truth bind] in H.
  - exists w. split; [reflexivity|]. intros ->. injection H as <-. discriminate T.
  - injection H as <-. discriminate T.
Qed.
Lemma absent_value k d v : absent k d -> v = get String.eqb k d -> v = None \/ v = Some VNone.
Proof. intros [A|A] ->; rewrite A; auto. Qed.
Lemma never_true c e v : all_orderly c -> never e = true -> eval other c e = Ok v -> truth v = false.
Proof.
  intros T N H. destruct (truth v) eqn:TV; [|reflexivity]. exfalso.
  assert (G : forall m k w, unwanted k = true -> eval other c (EAttr m k) = Ok (Some w) -> w <> VNone -> False).
  { intros m k w U E NN. destruct (attr_value c m k _ T E) as [Z|(d & O & Z)]; [discriminate|]. destruct (absent_value k d _ (unwanted_absent k d U O) Z) as [Y|Y]; [discriminate|]. injection Y as ->. now apply NN. }
  assert (K : forall a, given_of e = Some a -> match a with EAttr _ k => unwanted k | _ => false end = true -> False).
  { intros a A U. destruct (given_true c e a v A H TV) as (w & E & NN). destruct a; try discriminate U. now apply (G a a0 w). }
  destruct e; cbn [never] in N; try (destruct (given_of _) as [a|] eqn:A in N; [|discriminate]; now apply (K a)).
  destruct v as [w|]; [|discriminate TV]. apply (G e a w N H). intros ->. discriminate TV.
Qed.
Lemma measures_true g c e m v : all_orderly c -> knows_measurements g c -> measures e = Some m -> eval other c e = Ok v -> truth v = true -> knows_measurements (m :: g) c.
Proof.
  intros T K M H TV. unfold measures in M. destruct (given_of e) as [a|] eqn:G; [|discriminate]. destruct a as [|a k| | | | | | | | | |]; try discriminate. destruct (String.eqb_spec k "measurement") as [->|]; [|discriminate]. injection M as <-.
  destruct (given_true c e _ v G H TV) as (w & E & NN). intros n u [<-|J] EU; [|now apply (K n)]. rewrite EU in E. injection E as ->.
  destruct (attr_value c a "measurement" _ T EU) as [Z|(d & (_ & _ & O) & Z)]; [discriminate|]. destruct O as [O|(m & O & P)].
  - destruct (absent_value _ _ _ O Z) as [Y|Y]; [discriminate|]. injection Y as ->. now elim NN.
  - rewrite O in Z. injection Z as ->. now exists m.
Qed.

Lemma plain_part_text c p : plain_part p = true -> exists s, part_text other c p = Ok s /\ nameb s = true /\ prefix_ok p s = true.
Proof. destruct p as [s|]; [|discriminate]. intros H. exists s. auto. Qed.
Lemma of_measurement_text g c k p s : knows_measurements g c -> of_measurement g k p = true -> part_text other c p = Ok s ->
  exists m e, p = POut e /\ proper_measurement m /\ s = show other (get String.eqb k m).
Proof.
  intros K O H. destruct p as [|e]; [discriminate|]. cbn [of_measurement] in O. destruct e as [|e a| | | | | | | | | |]; try discriminate. apply andb_prop in O as [A J]. apply String.eqb_eq in A as ->.
  apply existsb_exists in J as (x & J & X). apply expr_eqb_eq in X as <-. cbn [part_text eval] in H. destruct (eval other c e) as [v|] eqn:E; cbn [bind] in H; [|discriminate].
  destruct (K e v J E) as (m & -> & P). cbn [attribute bind] in H. injection H as <-. exists m, (EAttr e k). auto.
Qed.
Lemma qname_sits_text g c q : knows_measurements g c -> qname_sits g q = true -> qname_text other c q <> Bad.
Proof.
  intros K S. apply andb_prop in S as [S P]. unfold qname_text.
  assert (L : forall n, part_text other c (q_local q) = Ok n -> nameb n = true).
  { intros n E. apply orb_prop in S as [S|S]; [destruct (plain_part_text c _ S) as (s & E' & N & _); congruence|].
    destruct (of_measurement_text g c "name" _ n K S E) as (m & e & _ & (p & x & _ & A & _ & N) & ->). rewrite A. cbn [show]. now apply name_nameb. }
  destruct (q_prefix q) as [p|].
  - destruct (part_text other c p) as [t|] eqn:Ep; cbn [lift obind]; [|discriminate]. destruct (part_text other c (q_local q)) as [n|]; cbn [lift obind]; [|discriminate]. rewrite (L n eq_refl), andb_true_r.
    assert (O : prefix_ok p t = true); [|rewrite O; discriminate].
    apply orb_prop in P as [P|P]; [destruct (plain_part_text c _ P) as (s & E' & _ & N); congruence|].
    destruct (of_measurement_text g c "ns" _ t K P Ep) as (m & e & -> & (x & y & A & _ & U & _) & ->). rewrite A. cbn [show prefix_ok]. destruct U as [->| ->]; reflexivity.
  - destruct (part_text other c (q_local q)) as [n|]; cbn [lift obind]; [|discriminate]. rewrite (L n eq_refl). discriminate.
Qed.

Lemma concat_not_bad {A} (f : A -> outcome (list xml)) l : (forall a, In a l -> f a <> Bad) -> concat_all f l <> Bad.
Proof.
  induction l as [|a l IH]; intros H; [discriminate|]. cbn [concat_all]. specialize (H a (or_introl eq_refl)) as Ha. specialize (IH (fun x J => H x (or_intror J))). fold (concat_all f l).
  destruct (f a); cbn [obind]; [|discriminate|contradiction]. destruct (concat_all f l); [discriminate|discriminate|contradiction].
Qed.
Lemma counted_not_bad {A} (f : nat -> A -> outcome (list xml)) k l : (forall i a, In a l -> f i a <> Bad) -> concat_counted f k l <> Bad.
Proof.
  revert k. induction l as [|a l IH]; intros k H; [discriminate|]. cbn [concat_counted]. specialize (H k a (or_introl eq_refl)) as Ha. specialize (IH (S k) (fun i x J => H i x (or_intror J))). fold (concat_counted f (S k) l).
  destruct (f k a); cbn [obind]; [|discriminate|contradiction]. destruct (concat_counted f (S k) l); [discriminate|discriminate|contradiction].
Qed.
Lemma obind_not_bad {A B} (o : outcome A) (f : A -> outcome B) : o <> Bad -> (forall a, o = Good a -> f a <> Bad) -> obind o f <> Bad.
Proof. destruct o; cbn [obind]; [auto|discriminate|contradiction]. Qed.
Lemma lift_not_bad {A} (r : result A) : lift r <> Bad. Proof. destruct r; discriminate. Qed.
Lemma lift_good {A} (r : result A) a : lift r = Good a -> r = Ok a. Proof. destruct r; [now intros [= ->]|discriminate]. Qed.

Lemma sits_tree : forall i g c, all_orderly c -> knows_measurements g c -> sits g i = true -> tree other i c <> Bad.
Proof.
  fix IH 1. intros i g c T K S.
  assert (ALL : forall is g c, (fix go (l : list item) : Prop := match l with [] => True | i :: l => (forall g c, all_orderly c -> knows_measurements g c -> sits g i = true -> tree other i c <> Bad) /\ go l end) is ->
    all_orderly c -> knows_measurements g c -> forallb (sits g) is = true -> concat_all (fun i => tree other i c) is <> Bad).
  { clear. intros is g c H T K S. apply concat_not_bad. intros i J. induction is as [|k is IHi]; [destruct J|]. destruct H as [H1 H2]. cbn [forallb] in S. apply andb_prop in S as [S1 S2].
    destruct J as [<-|J]; [now apply (H1 g)|now apply IHi]. }
  destruct i as [q attrs a t|q attrs a|q attrs a cs|e a b|x e body|]; cbn [sits tree] in *.
  - apply obind_not_bad; [now apply (qname_sits_text g)|]. intros w _. apply obind_not_bad; [apply lift_not_bad|]. discriminate.
  - apply obind_not_bad; [now apply (qname_sits_text g)|]. discriminate.
  - apply andb_prop in S as [S1 S2]. apply obind_not_bad; [now apply (qname_sits_text g)|]. intros w _. apply obind_not_bad; [|discriminate].
    apply (ALL cs g); auto. clear - IH. induction cs as [|i cs IHc]; [exact I|]. split; [exact (IH i)|exact IHc].
  - apply andb_prop in S as [S1 S2]. apply obind_not_bad; [apply lift_not_bad|]. intros v E. apply lift_good in E. destruct (truth v) eqn:TV.
    + destruct (never e) eqn:N; [rewrite (never_true c e v T N E) in TV; discriminate|]. cbn [orb] in S1.
      apply (ALL a (match measures e with Some m => m :: g | None => g end)); auto; [clear - IH; induction a as [|i a IHa]; [exact I|split; [exact (IH i)|exact IHa]]|].
      destruct (measures e) as [m|] eqn:M; [|exact K]. now apply (measures_true g c e m v).
    + apply (ALL b g); auto. clear - IH. induction b as [|i b IHb]; [exact I|]. split; [exact (IH i)|exact IHb].
  - apply obind_not_bad; [apply lift_not_bad|]. intros v E. apply lift_good in E. apply obind_not_bad; [apply lift_not_bad|]. intros l L. apply lift_good in L. apply counted_not_bad. intros k u J.
    apply (ALL body []); [clear - IH; induction body as [|i body IHb]; [exact I|split; [exact (IH i)|exact IHb]]| |intros m w []|exact S].
    apply loop_tidy; [intros; exact I|exact index_orderly|exact T|]. intros w. apply (iterate_fine orderly_value) with (v := v) (l := l); try assumption; try (intros; exact I). now apply (eval_orderly c e).
  - discriminate.
Qed.
Lemma stands_tree : forall i c, stands i = true -> tree other i c <> Bad.
Proof.
  fix IH 1. intros i c S.
  assert (ALL : forall is c, (fix go (l : list item) : Prop := match l with [] => True | i :: l => (forall c, stands i = true -> tree other i c <> Bad) /\ go l end) is ->
    forallb stands is = true -> concat_all (fun i => tree other i c) is <> Bad).
  { clear. intros is c H S. apply concat_not_bad. intros i J. induction is as [|k is IHi]; [destruct J|]. destruct H as [H1 H2]. cbn [forallb] in S. apply andb_prop in S as [S1 S2].
    destruct J as [<-|J]; [now apply H1|now apply IHi]. }
  assert (N : forall c, knows_measurements [] c) by (intros k m w []).
  destruct i as [q attrs a t|q attrs a|q attrs a cs|e a b|x e body|]; cbn [stands tree] in *.
  - apply obind_not_bad; [now apply (qname_sits_text [])|]. intros w _. apply obind_not_bad; [apply lift_not_bad|]. discriminate.
  - apply obind_not_bad; [now apply (qname_sits_text [])|]. discriminate.
  - apply andb_prop in S as [S1 S2]. apply obind_not_bad; [now apply (qname_sits_text [])|]. intros w _. apply obind_not_bad; [|discriminate].
    apply (ALL cs); auto. clear - IH. induction cs as [|i cs IHc]; [exact I|]. split; [exact (IH i)|exact IHc].
  - apply andb_prop in S as [S1 S2]. apply obind_not_bad; [apply lift_not_bad|]. intros v _. destruct (truth v).
    + apply (ALL a); auto. clear - IH. induction a as [|i a IHa]; [exact I|]. split; [exact (IH i)|exact IHa].
    + apply (ALL b); auto. clear - IH. induction b as [|i b IHb]; [exact I|]. split; [exact (IH i)|exact IHb].
  - apply obind_not_bad; [apply lift_not_bad|]. intros v E. apply obind_not_bad; [apply lift_not_bad|]. intros l L. apply counted_not_bad. intros k u J.
    apply (ALL body); [clear - IH; induction body as [|i body IHb]; [exact I|split; [exact (IH i)|exact IHb]]|exact S].
  - discriminate.
Qed.
End Any.

(** ** The kinds of messages *)
Lemma plain_stands kind : In kind plain_kinds -> forallb stands (items_of (kind ++ ".xml")) = true.
Proof. cbn. intros H. repeat (destruct H as [<-|H]; [vm_compute; reflexivity|]). destruct H. Qed.
Lemma risky_sits kind : In kind risky_kinds -> forallb (sits []) (items_of (kind ++ ".xml")) = true.
Proof. cbn. intros H. repeat (destruct H as [<-|H]; [vm_compute; reflexivity|]). destruct H. Qed.
Lemma any_trees other kind payload : presentable kind payload -> trees other (items_of (kind ++ ".xml")) payload <> Bad.
Proof.
  intros [P|[P O]]; apply concat_not_bad; intros i J.
  - apply stands_tree. exact (proj1 (forallb_forall _ _) (plain_stands kind P) i J).
  - apply (sits_tree other i [] payload); [|intros m v []|exact (proj1 (forallb_forall _ _) (risky_sits kind P) i J)].
    intros k v w J' H. destruct w; try exact I. apply O. now apply (within_dict payload k v).
Qed.
(** The signed object and the message in it. *)
Definition framed (kind : string) (is : list item) : bool :=
  match is with
  | [INode q attrs _ [INode q' attrs' _ _]] =>
    match q, q' with
    | mk_qname (Some (PLit _)) (PLit n), mk_qname (Some (PLit _)) (PLit n') =>
      (n =? "oadrSignedObject") && (n' =? kind) && attrs_eqb (plain_attrs attrs) [("Id", "oadrSignedObject")] && attrs_eqb (plain_attrs attrs') message_attrs
    | _, _ => false
    end
  | _ => false
  end.
Lemma framed_tree other kind is c xs : framed kind is = true -> trees other is c = Good xs -> exists cs, xs = [Elem "oadrSignedObject" [("Id", "oadrSignedObject")] "" [Elem kind message_attrs "" cs]].
Proof.
  intros F H. destruct is as [|[| |q attrs a [|[| |q' attrs' a' cs| | |] [|]]| | |] [|]]; try discriminate F. destruct q as [[[p|]|] [n|]]; try discriminate F. destruct q' as [[[p'|]|] [n'|]]; try discriminate F.
  cbn [framed] in F. apply andb_prop in F as [F A']. apply andb_prop in F as [F A]. apply andb_prop in F as [N N']. apply String.eqb_eq in N as ->. apply String.eqb_eq in N' as ->. apply attrs_eqb_eq in A, A'.
  unfold trees in H. cbn [concat_all tree qname_text q_prefix q_local part_text lift obind] in H. destruct (prefix_ok (PLit p) p && nameb "oadrSignedObject"); cbn [obind] in H; [|discriminate].
  destruct (prefix_ok (PLit p') p' && nameb kind); cbn [obind] in H; [|discriminate]. destruct (concat_all (fun i => tree other i c) cs) as [ys| |]; cbn [obind app fst] in H; try discriminate.
  rewrite A, A' in H. injection H as <-. now exists ys.
Qed.
Lemma all_framed kind : In kind message_kinds -> framed kind (items_of (kind ++ ".xml")) = true /\ forallb (item_ok []) (items_of (kind ++ ".xml")) = true.
Proof. cbn. intros H. repeat (destruct H as [<-|H]; [split; vm_compute; reflexivity|]). destruct H. Qed.
Lemma presentable_kind kind payload : presentable kind payload -> In kind message_kinds.
Proof. unfold message_kinds. intros [P|[P _]]; apply in_or_app; auto. Qed.
Lemma failing_items other name c e : forallb (item_ok []) (items_of name) = true -> trees other (items_of name) c = Fails e -> render_template other name c = Raise e.
Proof.
  unfold items_of, render_template. destruct (get_template name) as [ns|]; [|discriminate].
  destruct (scan 600 ns) as [[is [|r rs]]|] eqn:E; cbn [whole]; intros O H; try discriminate H.
  pose proof (scan_shows other 600 ns is c E O) as S. rewrite H in S. exact S.
Qed.
