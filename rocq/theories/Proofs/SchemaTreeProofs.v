(** Validity of elements (Model/Schema.v): it does not depend on layout, and the
    children of an element can be taken one particle at a time. *)
From Coq Require Import ZArith String Ascii List Bool Lia.
From Verif.Base Require Import Result PyStr.
From Verif.Model Require Import Text Xml Schema SchemaTypes.
From Verif.Spec Require Import XmlTextSpec AcceptedSpec.
From Verif.Proofs Require Import RegexProofs XmlTextProofs SchemaValueProofs QualifyProofs.
Import ListNotations.
Local Open Scope string_scope.

(** ** Simple types do not tell empty text from white space *)
Definition space_chars : list ascii := ["009"; "010"; "013"; "032"]%char.
Fixpoint tolerant (s : simple) : bool :=
  match s with
  | OneOf b vs => tolerant b && (negb (preserves b) || forallb (fun v => negb (blank_text v)) vs)
  | Matching b r => tolerant b && (negb (preserves b) || (negb (nullable r) && forallb (fun c => dead (derive c r)) space_chars))
  | AtLeast b _ | AtMost b _ | ListOf b => tolerant b
  | Union ms => forallb tolerant ms
  | _ => true
  end.
Lemma blank_spec t : blank_text t = true <-> each spacing t.
Proof. unfold blank_text. induction t as [|c t IH]; cbn [list_ascii_of_string forallb each]; [tauto|]. now rewrite andb_true_iff, IH, space_spec. Qed.
Lemma words_blank t : each spacing t -> words t = [].
Proof. intros B. now rewrite (worded_words t [] (wd_none t B)). Qed.
Lemma fits_white uri : forall s t, tolerant s = true -> each spacing t -> fits uri s t = fits uri s "".
Proof.
  fix IH 1. intros s t T B. pose proof (collapse_blank t B) as C. pose proof (words_blank t B) as W. destruct s as [| | | | | | | | | |b vs|b r|b n|b n|ms|item]; cbn [fits]; rewrite ?C, ?W; try reflexivity.
  - cbn [tolerant] in T. apply andb_prop in T as [T1 T2]. rewrite (IH b t T1 B). f_equal. unfold value_of. destruct (preserves b); [|rewrite C; reflexivity].
    cbn [negb orb] in T2. rewrite forallb_forall in T2. assert (N : forall u, each spacing u -> existsb (String.eqb u) vs = false).
    { intros u Bu. destruct (existsb (String.eqb u) vs) eqn:E; [|reflexivity]. apply existsb_exists in E as (v & Iv & E). apply String.eqb_eq in E. subst v. specialize (T2 u Iv). apply blank_spec in Bu. now rewrite Bu in T2. }
    rewrite (N t B), (N "" I). reflexivity.
  - cbn [tolerant] in T. apply andb_prop in T as [T1 T2]. rewrite (IH b t T1 B). f_equal. unfold value_of. destruct (preserves b); [|rewrite C; reflexivity].
    cbn [negb orb] in T2. apply andb_prop in T2 as [T2 T3]. rewrite forallb_forall in T3. destruct t as [|c t]; [reflexivity|]. destruct B as [Bc B].
    transitivity false; [|cbn [matches]; symmetry; now apply negb_true_iff]. cbn [matches]. specialize (T3 c Bc). destruct (matches (derive c r) t) eqn:M; [|reflexivity]. apply matches_spec in M. now apply dead_spec in M.
  - cbn [tolerant] in T. now rewrite (IH b t T B).
  - cbn [tolerant] in T. now rewrite (IH b t T B).
  - cbn [tolerant] in T. induction ms as [|m ms IHm]; [reflexivity|]. cbn [forallb existsb] in *. apply andb_prop in T as [T1 T2]. now rewrite (IH m t T1 B), (IHm T2).
Qed.

(** ** Elements *)
Section Trees.
Variable uri : string -> bool.
Variable foreign : xml -> bool.

(** As [valid]; [lenient] says whether a fixed text may be left out. *)
Fixpoint validL (lenient : bool) (x : xml) (t : ty) : bool :=
  match x with
  | Elem _ attrs text cs =>
    if existsb instance_attribute attrs then foreign x else
    match t with
    | Simple declared s => attributes uri declared attrs && match cs with [] => fits uri s text | _ => false end
    | Fixed s v => attributes uri [] attrs && match cs with [] => (lenient && (text =? "")) || (fits uri s text && (value_of s text =? v)) | _ => false end
    | Complex declared ps => attributes uri declared attrs && blank_text text && children ps (map (fun c => (xml_name c, validL lenient c)) cs)
    | Anything => forallb foreign cs
    | Foreign => foreign x
    end
  end.
Definition agree {B} (R : B -> B -> Prop) (c c' : string * B) : Prop := fst c = fst c' /\ R (snd c) (snd c').
Lemma find_name_In {A} n (l : list (string * A)) a : find_name n l = Some a -> In (n, a) l.
Proof.
  unfold find_name. destruct (find _ l) as [[m b]|] eqn:F; [|discriminate]. apply find_some in F as [I E]. apply String.eqb_eq in E. cbn in *. intros X. injection X as <-. now subst.
Qed.
Lemma span_agree {B} (R : B -> B -> Prop) alts cs cs' : Forall2 (agree R) cs cs' ->
  Forall2 (agree R) (fst (span_names alts cs)) (fst (span_names alts cs')) /\ Forall2 (agree R) (snd (span_names alts cs)) (snd (span_names alts cs')).
Proof.
  induction 1 as [|c c' cs cs' [N Rc] F IH]; cbn [span_names]; [split; constructor|]. rewrite <- N. destruct (find_name (fst c) alts).
  - destruct (span_names alts cs) as [a b]. destruct (span_names alts cs') as [a' b']. cbn [fst snd] in *. destruct IH as [H1 H2]. split; [|exact H2]. constructor; [now split|exact H1].
  - cbn [fst snd]. split; [constructor|]. constructor; [now split|exact F].
Qed.
(** Types of the particles. *)
Definition types_in (ps : list particle) (t : ty) : Prop := exists p n, In p ps /\ In (n, t) (p_alts p).
Lemma children_mono ps : forall cs cs' : list (string * (ty -> bool)),
  Forall2 (agree (fun f g => forall t, types_in ps t -> f t = true -> g t = true)) cs cs' -> children ps cs = true -> children ps cs' = true.
Proof.
  induction ps as [|p ps IH]; intros cs cs' F; cbn [children].
  - destruct F; auto.
  - destruct (span_agree _ (p_alts p) cs cs' F) as [F1 F2]. destruct (span_names (p_alts p) cs) as [mine rest]. destruct (span_names (p_alts p) cs') as [mine' rest']. cbn [fst snd] in *.
    rewrite !andb_true_iff. intros [[L V] C]. assert (Le : length mine = length mine') by (clear - F1; induction F1; cbn; congruence). rewrite <- Le. split; [split; [exact L|]|].
    + clear - F1 V. induction F1 as [|c c' m m' [N R] F1 IHF]; [reflexivity|]. cbn [forallb] in *. apply andb_prop in V as [V1 V2]. rewrite (IHF V2), andb_true_r. rewrite <- N.
      destruct (find_name (fst c) (p_alts p)) as [t|] eqn:E; [|discriminate]. apply R; [|exact V1]. exists p, (fst c). split; [now left|]. now apply find_name_In.
    + apply (IH rest); [|exact C]. clear - F2. induction F2 as [|c c' m m' [N R] F2 IHF]; constructor; [|exact IHF]. split; [exact N|]. intros t (q & n & I1 & I2). apply R. exists q, n. split; [now right|exact I2].
Qed.
Lemma children_ext ps f g (cs : list xml) : (forall c, In c cs -> forall t, f c t = g c t) -> children ps (map (fun c => (xml_name c, f c)) cs) = children ps (map (fun c => (xml_name c, g c)) cs).
Proof.
  intros E. apply eq_true_iff_eq. split; apply children_mono; induction cs as [|c cs IH]; cbn [map]; constructor; (split; [reflexivity|]) || (apply IH; intros; apply E; now right); intros t _; cbn [snd]; rewrite (E c (or_introl eq_refl) t); auto.
Qed.
Lemma valid_lenient : forall x t, validL true x t = valid uri foreign x t.
Proof.
  fix IH 1. intros [n attrs text cs] t. cbn [validL valid]. destruct (existsb instance_attribute attrs); [reflexivity|]. destruct t as [| |declared ps| |]; try reflexivity. f_equal.
  apply children_ext. clear - IH. induction cs as [|c cs IHc]; intros d J; [contradiction|]. destruct J as [E|J]; [rewrite <- E; exact (IH c)|exact (IHc d J)].
Qed.

(** ** Layout *)
Fixpoint tolerant_ty (t : ty) : bool :=
  match t with
  | Simple _ s => tolerant s
  | Fixed s v => tolerant s && negb (blank_text v)
  | Complex _ ps => forallb (fun p => match p with (alts, _, _) => forallb (fun a => match a with (_, t) => tolerant_ty t end) alts end) ps
  | _ => true
  end.
Definition one_line (t : string) : Prop := no_char newline t = true.
Lemma white_each t : all_chars white t -> each spacing t.
Proof. induction t as [|c t IH]; [auto|]. intros [A B]. split; [|now apply IH]. unfold white in A. unfold spacing. cbn [In] in *. tauto. Qed.
Lemma same_text_cases t t' : same_text t t' -> one_line t -> t' = t \/ (t = "" /\ all_chars white t').
Proof. intros (_ & S & W) N. destruct (string_dec t "") as [->|T]; [right|left; now apply S]. split; [reflexivity|]. apply W. exact I. Qed.
Lemma alike_spaced : (forall x y, alike x y -> texts_are one_line x -> spaced x y) /\ (forall xs ys, alikes xs ys -> Forall (texts_are one_line) xs -> spaced_all xs ys).
Proof.
  apply alike_mutual.
  - intros n attrs t t' cs cs' S _ IH T. inversion T as [? ? ? ? Lt Lc]; subst. constructor; [|now apply IH]. now apply same_text_cases.
  - constructor.
  - intros x y xs ys _ IHx _ IHs F. inversion F; subst. constructor; auto.
Qed.
Lemma spaced_refl : forall x, spaced x x.
Proof. fix IH 1. intros [n attrs t cs]. constructor; [now left|]. induction cs as [|c cs IHc]; constructor; [apply IH|exact IHc]. Qed.
Lemma spaced_app xs ys x y : spaced_all xs ys -> spaced x y -> spaced_all (xs ++ [x]) (ys ++ [y]).
Proof. intros A S. induction xs as [|a xs IH] in ys, A |- *; inversion A; subst; cbn [app]; repeat constructor; auto. Qed.
Lemma spaced_trans : (forall x y, spaced x y -> forall z, spaced y z -> spaced x z) /\ (forall xs ys, spaced_all xs ys -> forall zs, spaced_all ys zs -> spaced_all xs zs).
Proof.
  apply spaced_mutual.
  - intros n attrs t t' cs cs' S _ IH z H. inversion H as [? ? ? t2 ? cs2 S2 A2]; subst. constructor; [|now apply IH].
    destruct S as [->|[-> W]]; [exact S2|]. right. split; [reflexivity|]. destruct S2 as [->|[-> W2]]; assumption.
  - intros zs H. exact H.
  - intros x y xs ys _ IHx _ IHs zs H. inversion H; subst. constructor; auto.
Qed.
Lemma spacing_cases t t' : t' = t \/ (t = "" /\ all_chars white t') -> t' = t \/ (t = "" /\ each spacing t').
Proof. intros [E|[E W]]; [now left|right]. split; [exact E|now apply white_each]. Qed.
Lemma value_blank s t : each spacing t -> each spacing (value_of s t).
Proof. intros B. unfold value_of. destruct (preserves s); [exact B|]. rewrite collapse_blank by exact B. exact I. Qed.
Hypothesis O : forall x y, spaced x y -> foreign x = foreign y.
Lemma spaced_foreign cs cs' : spaced_all cs cs' -> forallb foreign cs = forallb foreign cs'.
Proof. intros A. induction A as [|x y xs ys A As IH]; [reflexivity|]. cbn [forallb]. now rewrite (O x y A), IH. Qed.
Lemma types_tolerant ps : forallb (fun p : particle => match p with (alts, _, _) => forallb (fun a => match a with (_, t) => tolerant_ty t end) alts end) ps = true -> forall t, types_in ps t -> tolerant_ty t = true.
Proof.
  intros H t (p & n & I1 & I2). rewrite forallb_forall in H. specialize (H p I1). destruct p as [[alts l] m]. rewrite forallb_forall in H. exact (H (n, t) I2).
Qed.
Lemma spaced_inv n attrs t cs y : spaced (Elem n attrs t cs) y -> exists t' cs', y = Elem n attrs t' cs' /\ (t' = t \/ (t = "" /\ each spacing t')) /\ spaced_all cs cs'.
Proof. inversion 1; subst. do 2 eexists. split; [reflexivity|]. split; [now apply spacing_cases|assumption]. Qed.
Lemma spaceds_inv x xs ys : spaced_all (x :: xs) ys -> exists y ys', ys = y :: ys' /\ spaced x y /\ spaced_all xs ys'.
Proof. inversion 1; subst. eauto 6. Qed.
Lemma spaced_named x y : spaced x y -> xml_name x = xml_name y.
Proof. now inversion 1. Qed.
Lemma spaced_valid : forall x y t, spaced x y -> tolerant_ty t = true ->
  (validL false x t = true -> validL true y t = true) /\ (validL true y t = true -> validL true x t = true).
Proof.
  fix IH 1. intros [n attrs tx cs] y t A T. destruct (spaced_inv _ _ _ _ _ A) as (ty' & cs' & -> & S & AS).
  cbn [validL]. destruct (existsb instance_attribute attrs); [rewrite (O _ _ A); tauto|].
  destruct t as [declared s|s v|declared ps| |]; cbn [tolerant_ty] in T.
  - assert (F : fits uri s ty' = fits uri s tx) by (destruct S as [->|[-> B]]; [reflexivity|now apply fits_white]). rewrite F. destruct AS; tauto.
  - apply andb_prop in T as [T1 T2]. rewrite !andb_true_iff. destruct AS; [|tauto]. rewrite !orb_true_iff, !andb_true_iff, !String.eqb_eq.
    destruct S as [->|[-> B]]; [intuition congruence|]. split; [|tauto]. intros [A0 [[F _]|[F V]]]; [discriminate|]. exfalso. apply negb_true_iff in T2. rewrite <- V in T2.
    enough (blank_text (value_of s "") = true) by congruence. apply blank_spec, value_blank. exact I.
  - rewrite !andb_true_iff. assert (BT : blank_text ty' = true <-> blank_text tx = true).
    { destruct S as [->|[-> B]]; [reflexivity|]. apply blank_spec in B. rewrite B. tauto. }
    assert (CH : (forall t, types_in ps t -> tolerant_ty t = true) -> (children ps (map (fun c => (xml_name c, validL false c)) cs) = true -> children ps (map (fun c => (xml_name c, validL true c)) cs') = true)
       /\ (children ps (map (fun c => (xml_name c, validL true c)) cs') = true -> children ps (map (fun c => (xml_name c, validL true c)) cs) = true)).
    { intros TT. clear - IH AS TT. split; apply children_mono.
      - revert cs' AS. induction cs as [|c cs IHc]; intros cs' AS; [inversion AS; subst; constructor|]. destruct (spaceds_inv _ _ _ AS) as (c' & cs2 & -> & Ac & As2). cbn [map]. constructor.
        + split; [cbn [fst]; exact (spaced_named c c' Ac)|]. intros t Ht. cbn [snd]. exact (proj1 (IH c c' t Ac (TT t Ht))).
        + exact (IHc cs2 As2).
      - revert cs' AS. induction cs as [|c cs IHc]; intros cs' AS; [inversion AS; subst; constructor|]. destruct (spaceds_inv _ _ _ AS) as (c' & cs2 & -> & Ac & As2). cbn [map]. constructor.
        + split; [cbn [fst]; symmetry; exact (spaced_named c c' Ac)|]. intros t Ht. cbn [snd]. exact (proj2 (IH c c' t Ac (TT t Ht))).
        + exact (IHc cs2 As2). }
    destruct (CH (types_tolerant ps T)) as [C1 C2]. tauto.
  - rewrite (spaced_foreign _ _ AS). tauto.
  - rewrite (O _ _ A). tauto.
Qed.
End Trees.
Lemma payload_tolerant : tolerant_ty oadr_oadrPayload_element = true.
Proof. vm_compute. reflexivity. Qed.

(** ** Children, one particle at a time *)
Section Particles.
Variable uri : string -> bool.
Variable foreign : xml -> bool.
Variable lenient : bool.
Definition V (pu : string) (x : xml) (t : ty) : Prop := validL uri foreign lenient (qualify pu x) t = true.
Definition named (pu : string) (c : xml) : string := xml_name (qualify pu c).
Definition owns (pu : string) (p : particle) (c : xml) : Prop := exists t, find_name (named pu c) (p_alts p) = Some t.
Definition kids (pu : string) (ps : list particle) (cs : list xml) : bool := children ps (map (fun c => (xml_name c, validL uri foreign lenient c)) (map (qualify pu) cs)).
Definition apart (p : particle) (ps : list particle) : bool := forallb (fun a => forallb (fun q => match find_name (fst a) (p_alts q) with Some _ => false | None => true end) ps) (p_alts p).
(** [has pu ps cs P]: the children belong to the particles, and are valid when [P]. *)
Definition has (pu : string) (ps : list particle) (cs : list xml) (P : Prop) : Prop :=
  (forall c, In c cs -> exists p, In p ps /\ owns pu p c) /\ (kids pu ps cs = true <-> P).
Definition accepts (pu : string) (p : particle) (cs : list xml) : Prop :=
  enough p (length cs) = true /\ forall c t, In c cs -> find_name (named pu c) (p_alts p) = Some t -> V pu c t.

Lemma find_name_some {A} n (l : list (string * A)) : (exists t, find_name n l = Some t) <-> In n (map fst l).
Proof.
  unfold find_name. split.
  - intros [t F]. destruct (find _ l) as [[m b]|] eqn:E; [|discriminate]. apply find_some in E as [I E]. apply String.eqb_eq in E. cbn in E. subst m. now apply (in_map fst) in I.
  - intros I. destruct (find (fun a => fst a =? n) l) as [a|] eqn:E; [now eexists|]. exfalso. apply in_map_iff in I as (a & <- & I). pose proof (find_none _ _ E a I) as N. cbn in N. now rewrite String.eqb_refl in N.
Qed.
Lemma apart_spec pu p ps c : apart p ps = true -> (exists q, In q ps /\ owns pu q c) -> find_name (named pu c) (p_alts p) = None.
Proof.
  intros A (q & Iq & t & F). destruct (find_name (named pu c) (p_alts p)) as [t'|] eqn:E; [|reflexivity]. exfalso. unfold apart in A. rewrite forallb_forall in A.
  apply find_name_In in E. specialize (A _ E). rewrite forallb_forall in A. specialize (A q Iq). cbn [fst] in A. now rewrite F in A.
Qed.
Lemma span_own {B} (alts : list (string * ty)) (cs rest : list (string * B)) :
  (forall c, In c cs -> exists t, find_name (fst c) alts = Some t) -> (forall c, In c rest -> find_name (fst c) alts = None) -> span_names alts (cs ++ rest)%list = (cs, rest).
Proof.
  intros H1 H2. induction cs as [|c cs IH]; cbn [app].
  - destruct rest as [|c rest]; [reflexivity|]. cbn [span_names]. now rewrite (H2 c (or_introl eq_refl)).
  - cbn [span_names]. destruct (H1 c (or_introl eq_refl)) as [t ->]. rewrite IH; [reflexivity|]. intros d I. apply H1. now right.
Qed.
Lemma has_nil pu : has pu [] [] True.
Proof. split; [intros c []|]. cbn. tauto. Qed.
Lemma has_cons pu p ps cs rest P Q : (forall c, In c cs -> owns pu p c) -> apart p ps = true -> (accepts pu p cs <-> P) -> has pu ps rest Q -> has pu (p :: ps) (cs ++ rest)%list (P /\ Q).
Proof.
  intros Ow A Ac [Ow' H]. split.
  - intros c I. apply in_app_iff in I as [I|I]; [exists p; split; [now left|now apply Ow]|]. destruct (Ow' c I) as (q & Iq & Oq). exists q. split; [now right|exact Oq].
  - rewrite <- Ac, <- H. unfold kids. rewrite !map_app. cbn [children]. rewrite span_own.
    + rewrite !andb_true_iff, !map_length. unfold accepts. enough (forallb (fun c : string * (ty -> bool) => match find_name (fst c) (p_alts p) with Some t => snd c t | None => false end)
        (map (fun c => (xml_name c, validL uri foreign lenient c)) (map (qualify pu) cs)) = true <-> forall c t, In c cs -> find_name (named pu c) (p_alts p) = Some t -> V pu c t) by tauto.
      rewrite forallb_forall. split.
      * intros F c t I E. specialize (F (xml_name (qualify pu c), validL uri foreign lenient (qualify pu c)) (in_map _ _ _ (in_map _ _ _ I))). cbn [fst snd] in F. unfold named in E. rewrite E in F. exact F.
      * intros F d I. apply in_map_iff in I as (x & <- & I). apply in_map_iff in I as (c & <- & I). cbn [fst snd]. destruct (Ow c I) as [t E]. unfold named in E. rewrite E. exact (F c t I E).
    + intros d I. apply in_map_iff in I as (x & <- & I). apply in_map_iff in I as (c & <- & I). exact (Ow c I).
    + intros d I. apply in_map_iff in I as (x & <- & I). apply in_map_iff in I as (c & <- & I). exact (apart_spec pu p ps c A (Ow' c I)).
Qed.
(** A child that belongs to no particle. *)
Lemma kids_stray pu ps cs c : In c cs -> (forall p, In p ps -> find_name (named pu c) (p_alts p) = None) -> kids pu ps cs = false.
Proof.
  unfold kids. intros I. set (g := fun c => (xml_name c, validL uri foreign lenient c)). assert (J : In (g (qualify pu c)) (map g (map (qualify pu) cs))) by (do 2 apply in_map; exact I).
  change (named pu c) with (fst (g (qualify pu c))). revert J. generalize (g (qualify pu c)) as d. generalize (map g (map (qualify pu) cs)) as ds. clear. intros ds d.
  revert ds. induction ps as [|p ps IH]; intros ds J N; cbn [children]; [destruct ds; [contradiction|reflexivity]|].
  destruct (span_names (p_alts p) ds) as [mine rest] eqn:E. rewrite (IH rest), andb_false_r; [reflexivity| |intros q Iq; apply N; now right].
  clear IH. revert mine rest E. induction ds as [|x ds IHd]; intros mine rest E; [contradiction|]. cbn [span_names] in E. destruct J as [->|J].
  - rewrite (N p (or_introl eq_refl)) in E. injection E as <- <-. now left.
  - destruct (find_name (fst x) (p_alts p)); [|injection E as <- <-; now right]. destruct (span_names (p_alts p) ds) as [a b]. injection E as <- <-. now apply (IHd J a b).
Qed.
(** ** Common particles *)
Lemma owns_one pu n t c l m : named pu c = n -> owns pu ([(n, t)], l, m) c.
Proof. intros E. exists t. unfold find_name. cbn. rewrite E, String.eqb_refl. reflexivity. Qed.
Lemma found_one pu n t t' c l m : find_name (named pu c) (p_alts ([(n, t)], l, m)) = Some t' -> t' = t.
Proof. unfold find_name. cbn. destruct (n =? named pu c); [|discriminate]. intros E. now injection E. Qed.
Lemma found_one' pu n t c l m : named pu c = n -> find_name (named pu c) (p_alts ([(n, t)], l, m)) = Some t.
Proof. intros E. unfold find_name. cbn. rewrite E, String.eqb_refl. reflexivity. Qed.
Lemma has_step pu n t l m ps cs rest P Q : (forall c, In c cs -> named pu c = n) -> apart ([(n, t)], l, m) ps = true ->
  (enough ([(n, t)], l, m) (length cs) = true /\ (forall c, In c cs -> V pu c t) <-> P) -> has pu ps rest Q -> has pu (([(n, t)], l, m) :: ps) (cs ++ rest)%list (P /\ Q).
Proof.
  intros N A E H. apply has_cons; [intros c I; apply owns_one; auto|exact A| |exact H]. rewrite <- E. unfold accepts. split; intros [X Y]; (split; [exact X|]).
  - intros c I. apply (Y c t I). now apply found_one', N.
  - intros c t' I F. apply found_one in F. subst t'. now apply Y.
Qed.
(** No child for a particle that needs none. *)
Lemma has_skip pu p ps cs Q : enough p 0 = true -> apart p ps = true -> has pu ps cs Q -> has pu (p :: ps) cs Q.
Proof.
  intros E A H. destruct (has_cons pu p ps [] cs True Q) as [O X]; [intros c []|exact A|split; [auto|intros _; split; [exact E|intros c t []]]|exact H|]. split; [exact O|]. cbn [app] in X. rewrite X. tauto.
Qed.
Lemma has_one pu n t ps x cs P Q : named pu x = n -> apart (one n t) ps = true -> (V pu x t <-> P) -> has pu ps cs Q -> has pu (one n t :: ps) (x :: cs) (P /\ Q).
Proof.
  intros N A E H. apply (has_step pu n t 1 (Some 1%nat) ps [x] cs); [|exact A| |exact H]; [intros c [<-|[]]; exact N|]. rewrite <- E. cbn. split; [intros [_ X]; auto|]. intros X. split; [reflexivity|]. intros c [<-|[]]; exact X.
Qed.
Lemma has_opt_one pu n t ps x cs P Q : named pu x = n -> apart (opt n t) ps = true -> (V pu x t <-> P) -> has pu ps cs Q -> has pu (opt n t :: ps) (x :: cs) (P /\ Q).
Proof.
  intros N A E H. apply (has_step pu n t 0 (Some 1%nat) ps [x] cs); [|exact A| |exact H]; [intros c [<-|[]]; exact N|]. rewrite <- E. cbn. split; [intros [_ X]; auto|]. intros X. split; [reflexivity|]. intros c [<-|[]]; exact X.
Qed.
Lemma has_many_one pu n t ps x cs P Q : named pu x = n -> apart (many n t) ps = true -> (V pu x t <-> P) -> has pu ps cs Q -> has pu (many n t :: ps) (x :: cs) (P /\ Q).
Proof.
  intros N A E H. apply (has_step pu n t 0 None ps [x] cs); [|exact A| |exact H]; [intros c [<-|[]]; exact N|]. rewrite <- E. cbn. split; [intros [_ X]; auto|]. intros X. split; [reflexivity|]. intros c [<-|[]]; exact X.
Qed.
Lemma has_some_one pu n t ps x cs P Q : named pu x = n -> apart (some n t) ps = true -> (V pu x t <-> P) -> has pu ps cs Q -> has pu (some n t :: ps) (x :: cs) (P /\ Q).
Proof.
  intros N A E H. apply (has_step pu n t 1 None ps [x] cs); [|exact A| |exact H]; [intros c [<-|[]]; exact N|]. rewrite <- E. cbn. split; [intros [_ X]; auto|]. intros X. split; [reflexivity|]. intros c [<-|[]]; exact X.
Qed.
Lemma has_opt {A} pu n t ps (f : A -> xml) o cs (P : A -> Prop) Q : (forall a, named pu (f a) = n) -> apart (opt n t) ps = true -> (forall a, o = Some a -> (V pu (f a) t <-> P a)) -> has pu ps cs Q ->
  has pu (opt n t :: ps) (Xml.opt f o ++ cs)%list (if_given P o /\ Q).
Proof.
  intros N B E H. apply (has_step pu n t 0 (Some 1%nat) ps); [|exact B| |exact H]; destruct o as [a|]; cbn; try tauto; [intros c [<-|[]]; apply N|]. rewrite <- (E a eq_refl). split; [intros [_ X]; auto|]. intros X. split; [reflexivity|]. intros c [<-|[]]; exact X.
Qed.
Lemma has_many_opt {A} pu n t ps (f : A -> xml) o cs (P : A -> Prop) Q : (forall a, named pu (f a) = n) -> apart (many n t) ps = true -> (forall a, o = Some a -> (V pu (f a) t <-> P a)) -> has pu ps cs Q ->
  has pu (many n t :: ps) (Xml.opt f o ++ cs)%list (if_given P o /\ Q).
Proof.
  intros N B E H. apply (has_step pu n t 0 None ps); [|exact B| |exact H]; destruct o as [a|]; cbn; try tauto; [intros c [<-|[]]; apply N|]. rewrite <- (E a eq_refl). split; [intros [_ X]; auto|]. intros X. split; [reflexivity|]. intros c [<-|[]]; exact X.
Qed.
(** An element that is required, but perhaps not there. *)
Lemma has_must {A} pu n t ps (f : A -> xml) o cs (P : A -> Prop) Q : (forall a, named pu (f a) = n) -> apart (one n t) ps = true -> (forall a, o = Some a -> (V pu (f a) t <-> P a)) -> has pu ps cs Q ->
  has pu (one n t :: ps) (Xml.opt f o ++ cs)%list ((exists a, o = Some a /\ P a) /\ Q).
Proof.
  intros N B E H. apply (has_step pu n t 1 (Some 1%nat) ps); [|exact B| |exact H]; destruct o as [a|]; cbn; try tauto; [intros c [<-|[]]; apply N| |].
  - split; [intros [_ X]; exists a; split; [reflexivity|]; apply (E a eq_refl); auto|]. intros (a' & Ea & X). injection Ea as <-. split; [reflexivity|]. intros c [<-|[]]. now apply (E a eq_refl).
  - split; [intros [X _]; discriminate|]. intros (a & X & _). discriminate.
Qed.
Lemma all_mapped {A} pu (f : A -> xml) t l (P : A -> Prop) : (forall a, In a l -> (V pu (f a) t <-> P a)) -> ((forall c, In c (map f l) -> V pu c t) <-> Forall P l).
Proof.
  intros E. rewrite Forall_forall. split.
  - intros X a I. apply (E a I), X. now apply in_map.
  - intros X c I. apply in_map_iff in I as (a & <- & I). now apply (E a I), X.
Qed.
Lemma has_many {A} pu n t ps (f : A -> xml) l cs (P : A -> Prop) Q : (forall a, named pu (f a) = n) -> apart (many n t) ps = true -> (forall a, In a l -> (V pu (f a) t <-> P a)) -> has pu ps cs Q ->
  has pu (many n t :: ps) (map f l ++ cs)%list (Forall P l /\ Q).
Proof.
  intros N B E H. apply (has_step pu n t 0 None ps); [|exact B| |exact H]; [intros c I; apply in_map_iff in I as (a & <- & I); apply N|]. rewrite (all_mapped pu f t l P E). cbn. tauto.
Qed.
Lemma has_some {A} pu n t ps (f : A -> xml) l cs (P : A -> Prop) Q : (forall a, named pu (f a) = n) -> apart (some n t) ps = true -> (forall a, In a l -> (V pu (f a) t <-> P a)) -> has pu ps cs Q ->
  has pu (some n t :: ps) (map f l ++ cs)%list ((l <> [] /\ Forall P l) /\ Q).
Proof.
  intros N B E H. apply (has_step pu n t 1 None ps); [|exact B| |exact H]; [intros c I; apply in_map_iff in I as (a & <- & I); apply N|]. rewrite (all_mapped pu f t l P E).
  destruct l; cbn; intuition congruence.
Qed.
(** One of several elements. *)
Lemma has_alt pu alts t ps (x : xml) cs l m P Q : find_name (named pu x) alts = Some t -> enough (alts, l, m) 1 = true -> apart (alts, l, m) ps = true -> (V pu x t <-> P) -> has pu ps cs Q ->
  has pu ((alts, l, m) :: ps) (x :: cs) (P /\ Q).
Proof.
  intros F E B H1 H2. apply (has_cons pu (alts, l, m) ps [x] cs); [intros c [<-|[]]; now exists t|exact B| |exact H2]. rewrite <- H1. unfold accepts. cbn [length]. split.
  - intros [_ X]. apply (X x t); [now left|exact F].
  - intros X. split; [exact E|]. intros c t' [<-|[]] F'. cbn [p_alts fst] in F'. rewrite F in F'. injection F' as <-. exact X.
Qed.
(** ** Elements *)
Lemma V_leaf pu n t s : V pu (leaf n t) (Simple [] s) <-> fits uri s t = true.
Proof. unfold V. cbn. tauto. Qed.
Lemma V_fixed pu n t v : V pu (leaf n t) (Fixed Text v) <-> says lenient t v.
Proof. unfold V, says. cbn. rewrite orb_true_iff, andb_true_iff, !String.eqb_eq. tauto. Qed.
Lemma V_node pu n declared cs ps P : has (uri_of pu n) ps cs P -> (V pu (node n cs) (Complex declared ps) <-> P).
Proof. intros [_ H]. rewrite <- H. unfold V, kids, node. cbn [qualify validL map existsb attributes forallb blank_text list_ascii_of_string andb]. reflexivity. Qed.
Lemma V_message pu n cs ps P : has (uri_of pu n) ps cs P -> (V pu (Elem n message_attrs "" cs) (Complex [(in_ei "schemaVersion", ei_schemaVersionType)] ps) <-> P).
Proof.
  intros [_ H]. rewrite <- H. unfold V, kids. cbn [qualify validL].
  change (existsb instance_attribute (map qualify_attr message_attrs)) with false. cbn iota.
  change (attributes uri [(in_ei "schemaVersion", ei_schemaVersionType)] (map qualify_attr message_attrs)) with true. reflexivity.
Qed.
Lemma V_empty pu n ps : forallb (fun p => enough p 0) ps = true -> V pu (leaf n "") (Complex [] ps).
Proof.
  intros E. unfold V. cbn [qualify leaf validL map existsb attributes forallb blank_text list_ascii_of_string andb]. induction ps as [|p ps IH]; [reflexivity|]. cbn [forallb] in E. apply andb_prop in E as [E1 E2]. cbn [children span_names length]. rewrite E1. cbn [forallb andb]. exact (IH E2).
Qed.
Lemma V_anything pu n : V pu (leaf n "") Anything.
Proof. reflexivity. Qed.
End Particles.
