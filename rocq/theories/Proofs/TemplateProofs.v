(** Lemmas for C84: the mark-up in a template.

    [scan] reads a template as elements with places for values; [tree] is the
    tree that these elements make for given values, and [rtree] is the same
    with qualified names.  The result of rendering the template is a way to
    write this tree. *)
From Coq Require Import ZArith String Ascii List Bool Lia.
From Verif.Base Require Import Result Dict PyStr ListExtra.
From Verif.Model Require Import Text Normalize Xml XmlText Jinja.
From Verif.Spec Require Import TextSpec XmlTextSpec.
From Verif.Proofs Require Import TextProofs XmlTextProofs.
Import ListNotations.
Local Open Scope string_scope.

(** ** Elements with places for values *)
Inductive part := PLit (s : string) | POut (e : expr).
Record qname := mk_qname { q_prefix : option part; q_local : part }.
Inductive item :=
| IText (q : qname) (attrs : list (string * string)) (a : string) (t : part)
| IEmpty (q : qname) (attrs : list (string * string)) (a : string)
| INode (q : qname) (attrs : list (string * string)) (a : string) (cs : list item)
| IIf (e : expr) (a b : list item)
| IFor (x : string) (e : expr) (body : list item)
| IBad.

Inductive outcome (A : Type) := Good (a : A) | Fails (e : exn) | Bad.
Arguments Good {A} a.
Arguments Fails {A} e.
Arguments Bad {A}.
Definition obind {A B} (o : outcome A) (f : A -> outcome B) : outcome B := match o with Good a => f a | Fails e => Fails e | Bad => Bad end.
Definition lift {A} (r : result A) : outcome A := match r with Ok a => Good a | Raise e => Fails e end.

Definition nameb_char (c : ascii) : bool :=
  let n := N_of_ascii c in ((48 <=? n) && (n <=? 57) || (65 <=? n) && (n <=? 90) || (97 <=? n) && (n <=? 122) || (n =? 45) || (n =? 46) || (n =? 95))%N.
Fixpoint all_name (s : string) : bool := match s with EmptyString => true | String c r => nameb_char c && all_name r end.
Definition nameb (s : string) : bool := negb (s =? "") && all_name s.

Section Trees.
Variable other : val -> string.

Definition part_text (c : vdict) (p : part) : result string :=
  match p with PLit s => Ok s | POut e => bind (eval other c e) (fun v => Ok (show other v)) end.
(** The prefixes that may be chosen by a value. *)
Definition prefixes : list string := ["oadr"; "power"].
Definition prefix_ok (p : part) (t : string) : bool := match p with PLit _ => nameb t | POut _ => existsb (String.eqb t) prefixes end.
(** The local name and the whole name. *)
Definition qname_text (c : vdict) (q : qname) : outcome (string * string) :=
  match q_prefix q with
  | None => obind (lift (part_text c (q_local q))) (fun n => if nameb n then Good (n, n) else Bad)
  | Some p => obind (lift (part_text c p)) (fun t => obind (lift (part_text c (q_local q))) (fun n => if prefix_ok p t && nameb n then Good (n, t ++ ":" ++ n) else Bad))
  end.
(** Attributes without their namespaces. *)
Definition plain_attrs (raw : list (string * string)) : list (string * string) :=
  flat_map (fun a => match split_colon (fst a) with
    | None => if fst a =? "xmlns" then [] else [a]
    | Some (p, n) => if p =? "xmlns" then [] else [(n, snd a)]
    end) raw.

Definition concat_all {A} (f : A -> outcome (list xml)) : list A -> outcome (list xml) :=
  fix go l := match l with [] => Good [] | a :: r => obind (f a) (fun xs => obind (go r) (fun ys => Good (xs ++ ys)%list)) end.
Definition concat_counted {A} (f : nat -> A -> outcome (list xml)) : nat -> list A -> outcome (list xml) :=
  fix go i l := match l with [] => Good [] | a :: r => obind (f i a) (fun xs => obind (go (S i) r) (fun ys => Good (xs ++ ys)%list)) end.
Fixpoint tree (i : item) (c : vdict) : outcome (list xml) :=
  match i with
  | IText q attrs _ t => obind (qname_text c q) (fun q => obind (lift (part_text c t)) (fun t => Good [Elem (fst q) (plain_attrs attrs) t []]))
  | IEmpty q attrs _ => obind (qname_text c q) (fun q => Good [Elem (fst q) (plain_attrs attrs) "" []])
  | INode q attrs _ cs => obind (qname_text c q) (fun q => obind (concat_all (fun i => tree i c) cs) (fun cs => Good [Elem (fst q) (plain_attrs attrs) "" cs]))
  | IIf e a b => obind (lift (eval other c e)) (fun v => if truth v then concat_all (fun i => tree i c) a else concat_all (fun i => tree i c) b)
  | IFor x e body => obind (lift (eval other c e)) (fun v => obind (lift (iterate v)) (concat_counted (fun k v => concat_all (fun i => tree i (in_loop c x k v)) body) 0))
  | IBad => Bad
  end.
Definition trees (is : list item) (c : vdict) : outcome (list xml) := concat_all (fun i => tree i c) is.
Fixpoint rtree (i : item) (c : vdict) : outcome (list xml) :=
  match i with
  | IText q attrs _ t => obind (qname_text c q) (fun q => obind (lift (part_text c t)) (fun t => Good [Elem (snd q) attrs t []]))
  | IEmpty q attrs _ => obind (qname_text c q) (fun q => Good [Elem (snd q) attrs "" []])
  | INode q attrs _ cs => obind (qname_text c q) (fun q => obind (concat_all (fun i => rtree i c) cs) (fun cs => Good [Elem (snd q) attrs "" cs]))
  | IIf e a b => obind (lift (eval other c e)) (fun v => if truth v then concat_all (fun i => rtree i c) a else concat_all (fun i => rtree i c) b)
  | IFor x e body => obind (lift (eval other c e)) (fun v => obind (lift (iterate v)) (concat_counted (fun k v => concat_all (fun i => rtree i (in_loop c x k v)) body) 0))
  | IBad => Bad
  end.
Definition rtrees (is : list item) (c : vdict) : outcome (list xml) := concat_all (fun i => rtree i c) is.
End Trees.

(** ** Reading the mark-up *)
Definition whiteb (c : ascii) : bool := Ascii.eqb c "009" || Ascii.eqb c "010" || Ascii.eqb c "032".
Fixpoint span_white (s : string) : string * string :=
  match s with
  | EmptyString => (EmptyString, EmptyString)
  | String c r => if whiteb c then let '(a, b) := span_white r in (String c a, b) else (EmptyString, s)
  end.
Fixpoint span_chars (s : string) : string * string :=
  match s with
  | EmptyString => (EmptyString, EmptyString)
  | String c r => if nameb_char c then let '(a, b) := span_chars r in (String c a, b) else (EmptyString, s)
  end.
Definition valueb_char (c : ascii) : bool := negb (existsb (Ascii.eqb c) ["034"; "039"; "038"; "060"; "010"; "062"]%char).
Fixpoint span_value (s : string) : string * string :=
  match s with
  | EmptyString => (EmptyString, EmptyString)
  | String c r => if valueb_char c then let '(a, b) := span_value r in (String c a, b) else (EmptyString, s)
  end.

(** Attributes: what they are, their text, and the rest. *)
Fixpoint scan_attrs (fuel : nat) (s : string) : option (list (string * string) * string * string) :=
  match fuel with
  | O => None
  | S fuel =>
    if startswith ">" s || startswith "/" s then Some ([], "", s)
    else match strip_prefix " " s with
    | None => None
    | Some r =>
      if startswith ">" r || startswith "/" r then Some ([], " ", r)
      else
        let '(a, r) := span_chars r in
        let '(p, n, r) := match strip_prefix ":" r with Some r => let '(b, r) := span_chars r in (Some a, b, r) | None => (None, a, r) end in
        match strip_prefix "=""" r with
        | None => None
        | Some r =>
          let '(v, r) := span_value r in
          match strip_prefix """" r with
          | None => None
          | Some r =>
            match scan_attrs fuel r with
            | None => None
            | Some (attrs, t, r) =>
              match p with
              | None => if nameb n then Some ((n, v) :: attrs, " " ++ n ++ "=""" ++ v ++ """" ++ t, r) else None
              | Some p => if nameb n && nameb p then Some ((p ++ ":" ++ n, v) :: attrs, " " ++ (p ++ ":" ++ n) ++ "=""" ++ v ++ """" ++ t, r) else None
              end
            end
          end
        end
    end
  end.

Definition expr_eq_dec (a b : expr) : {a = b} + {a <> b}.
Proof. decide equality; (apply string_dec || apply Z.eq_dec). Defined.

(** [ps] and then the rest. *)
Fixpoint expect (ps : list part) (ns : list tnode) : option (list tnode) :=
  match ps with
  | [] => Some ns
  | PLit s :: ps =>
    match ns with
    | TData d :: ns => match strip_prefix s d with Some r => expect ps (TData r :: ns) | None => None end
    | _ => None
    end
  | POut e :: ps =>
    match ns with
    | TData EmptyString :: TOut e' :: ns | TOut e' :: ns => if expr_eq_dec e e' then expect ps ns else None
    | _ => None
    end
  end.
Definition qparts (q : qname) : list part := match q_prefix q with Some p => [p; PLit ":"; q_local q] | None => [q_local q] end.

(** The name after an opening bracket. *)
Definition scan_name (ns : list tnode) : option qname :=
  match ns with
  | TData EmptyString :: TOut p :: TData s :: ns =>
    match strip_prefix ":" s, ns with
    | Some EmptyString, TOut n :: _ => Some (mk_qname (Some (POut p)) (POut n))
    | Some r, _ => Some (mk_qname (Some (POut p)) (PLit (fst (span_chars r))))
    | None, _ => None
    end
  | TData s :: _ =>
    let '(a, r) := span_chars s in
    match strip_prefix ":" r with
    | Some r => Some (mk_qname (Some (PLit a)) (PLit (fst (span_chars r))))
    | None => Some (mk_qname None (PLit a))
    end
  | _ => None
  end.
(** The text of an element without children. *)
Fixpoint before_mark (s : string) : string := match s with EmptyString => "" | String c r => if Ascii.eqb c "<" then "" else String c (before_mark r) end.
Definition scan_text (ns : list tnode) : part :=
  match ns with
  | TData EmptyString :: TOut e :: _ => POut e
  | TData s :: _ => PLit (before_mark s)
  | _ => PLit ""
  end.

Definition close (q : qname) (ps : list part) : list part := (ps ++ PLit "</" :: qparts q ++ [PLit ">"])%list.
(** An element without children: its item and the rest; or its name and
    attributes, and what comes after the opening tag. *)
Inductive opened := Closed (i : item) (ns : list tnode) | Open (q : qname) (attrs : list (string * string)) (a : string) (ns : list tnode).
Definition scan_open (fuel : nat) (ns : list tnode) : option opened :=
  match scan_name ns with
  | None => None
  | Some q =>
    match expect (qparts q) ns with
    | Some (TData d :: ns) =>
      match scan_attrs fuel d with
      | None => None
      | Some (attrs, a, d) =>
        match strip_prefix ">" d, strip_prefix "/>" d with
        | None, Some d => Some (Closed (IEmpty q attrs a) (TData d :: ns))
        | None, None => None
        | Some d, _ =>
          let t := scan_text (TData d :: ns) in
          match expect (close q [t]) (TData d :: ns) with
          | Some ns => Some (Closed (IText q attrs a t) ns)
          | None => Some (Open q attrs a (TData d :: ns))
          end
        end
      end
    | _ => None
    end
  end.

Definition whole (o : option (list item * list tnode)) : list item := match o with Some (is, []) => is | _ => [IBad] end.
Definition after (is : list item) (o : option (list item * list tnode)) : option (list item * list tnode) :=
  match o with Some (js, ns) => Some ((is ++ js)%list, ns) | None => None end.
Fixpoint scan (fuel : nat) (ns : list tnode) : option (list item * list tnode) :=
  match fuel with
  | O => None
  | S fuel =>
    match ns with
    | [] => Some ([], [])
    | TData d :: ns =>
      let '(w, d) := span_white d in
      if (d =? "") then scan fuel ns
      else if startswith "</" d then Some ([], TData d :: ns)
      else match strip_prefix "<" d with
      | None => None
      | Some r =>
        match scan_open fuel (TData r :: ns) with
        | None => None
        | Some (Closed i ns) => after [i] (scan fuel ns)
        | Some (Open q attrs a ns) =>
          match scan fuel ns with
          | Some (cs, ns) => match expect (close q []) ns with Some ns => after [INode q attrs a cs] (scan fuel ns) | None => None end
          | None => None
          end
        end
      end
    | TIf e a b :: ns => after [IIf e (whole (scan fuel a)) (whole (scan fuel b))] (scan fuel ns)
    | TFor x e body :: ns => after [IFor x e (whole (scan fuel body))] (scan fuel ns)
    | TInclude (Some body) :: ns => after (whole (scan fuel body)) (scan fuel ns)
    | TInclude None :: ns => after [IBad] (scan fuel ns)
    | TOut _ :: _ => None
    end
  end.

(** ** The pieces *)
Lemma joined_app {A} (f : A -> result string) a b : joined f (a ++ b) = bind (joined f a) (fun s => bind (joined f b) (fun t => Ok (s ++ t))).
Proof.
  induction a as [|x a IH]; cbn [app joined].
  - cbn [bind]. destruct (joined f b); reflexivity.
  - destruct (f x); cbn [bind]; [|reflexivity]. fold (joined f (a ++ b)). rewrite IH. fold (joined f a). destruct (joined f a); cbn [bind]; [|reflexivity].
    destruct (joined f b); cbn [bind]; [|reflexivity]. now rewrite str_app_assoc.
Qed.

Section Rendering.
Variable other : val -> string.
Definition same (ns ms : list tnode) : Prop := forall c, render_all other ns c = render_all other ms c.
Lemma render_cons n ns c : render_all other (n :: ns) c = bind (render other n c) (fun s => bind (render_all other ns c) (fun t => Ok (s ++ t))).
Proof. reflexivity. Qed.
Lemma render_app ns ms c : render_all other (ns ++ ms) c = bind (render_all other ns c) (fun s => bind (render_all other ms c) (fun t => Ok (s ++ t))).
Proof. apply joined_app. Qed.
Lemma same_refl ns : same ns ns.
Proof. intros c. reflexivity. Qed.
Lemma same_trans a b c : same a b -> same b c -> same a c.
Proof. intros H K d. now rewrite H, K. Qed.
Lemma same_cons n ns ms : same ns ms -> same (n :: ns) (n :: ms).
Proof. intros H c. rewrite !render_cons. now rewrite H. Qed.
Lemma same_app ks ns ms : same ns ms -> same (ks ++ ns) (ks ++ ms).
Proof. intros H c. rewrite !render_app. now rewrite H. Qed.
Lemma same_split a b ns : same (TData (a ++ b) :: ns) (TData a :: TData b :: ns).
Proof. intros c. rewrite !render_cons. cbn [render bind]. destruct (render_all other ns c); cbn [bind]; [|reflexivity]. now rewrite str_app_assoc. Qed.
Lemma same_nil ns : same (TData "" :: ns) ns.
Proof. intros c. rewrite render_cons. cbn [render bind]. now destruct (render_all other ns c). Qed.

Definition part_node (p : part) : tnode := match p with PLit s => TData s | POut e => TOut e end.
Lemma render_part p c : render other (part_node p) c = part_text other c p.
Proof. now destruct p. Qed.

Lemma strip_prefix_app p s r : strip_prefix p s = Some r -> s = p ++ r.
Proof.
  revert s. induction p as [|a p IH]; intros s H; cbn [strip_prefix] in H; [now injection H as ->|]. destruct s as [|b s]; [discriminate|].
  destruct (Ascii.eqb a b) eqn:E; [|discriminate]. apply Ascii.eqb_eq in E as ->. cbn [append]. now rewrite (IH _ H).
Qed.

Lemma expect_same ps ns r : expect ps ns = Some r -> same ns (map part_node ps ++ r).
Proof.
  revert ns. induction ps as [|p ps IH]; intros ns H; cbn [expect] in H; [injection H as ->; apply same_refl|]. destruct p as [s|e]; cbn [map part_node app].
  - destruct ns as [|[d| | | |] ns]; try discriminate. destruct (strip_prefix s d) as [d'|] eqn:E; [|discriminate]. apply strip_prefix_app in E as ->.
    eapply same_trans; [apply same_split|]. apply same_cons. now apply IH.
  - assert (K : forall m ns, (if expr_eq_dec e m then expect ps ns else None) = Some r -> same (TOut m :: ns) (TOut e :: map part_node ps ++ r)).
    { intros m ms Q. destruct (expr_eq_dec e m) as [->|]; [|discriminate]. apply same_cons. now apply IH. }
    destruct ns as [|[d|m| | |] ns]; try discriminate; [|now apply K].
    destruct d; [|discriminate]. destruct ns as [|[d'|m| | |] ns]; try discriminate. eapply same_trans; [apply same_nil|]. now apply K.
Qed.
End Rendering.

Lemma nameb_char_spec c : nameb_char c = true -> name_char c.
Proof.
  unfold nameb_char, name_char. cbv zeta. generalize (N_of_ascii c). intros n H. repeat (apply orb_prop in H as [H|H]);
    try (apply andb_prop in H as [A B]; apply N.leb_le in A, B; lia); apply N.eqb_eq in H; lia.
Qed.
Lemma nameb_name s : nameb s = true -> name s.
Proof.
  intros H. apply andb_prop in H as [N H]. split; [intros ->; discriminate|]. clear N. induction s as [|c s IH]; [exact I|]. cbn [all_name] in H.
  apply andb_prop in H as [A H]. split; [now apply nameb_char_spec|now apply IH].
Qed.
Lemma span_chars_app s a b : span_chars s = (a, b) -> s = a ++ b.
Proof.
  revert a b. induction s as [|c s IH]; intros a b H; cbn [span_chars] in H; [now injection H as <- <-|]. destruct (nameb_char c); [|now injection H as <- <-].
  destruct (span_chars s) as [a' b']. injection H as <- <-. cbn [append]. now rewrite (IH a' b' eq_refl).
Qed.
Lemma span_value_app s a b : span_value s = (a, b) -> s = a ++ b /\ all_chars value_char a.
Proof.
  revert a b. induction s as [|c s IH]; intros a b H; cbn [span_value] in H; [injection H as <- <-; split; [reflexivity|exact I]|].
  destruct (valueb_char c) eqn:V; [|injection H as <- <-; split; [reflexivity|exact I]].
  destruct (span_value s) as [a' b']. injection H as <- <-. destruct (IH a' b' eq_refl) as [-> A]. split; [reflexivity|]. split; [|exact A].
  unfold valueb_char in V. apply negb_true_iff in V. intros J. assert (X : existsb (Ascii.eqb c) ["034"; "039"; "038"; "060"; "010"; "062"]%char = true); [|congruence].
  apply existsb_exists. exists c. split; [exact J|apply Ascii.eqb_refl].
Qed.
Lemma span_white_app s a b : span_white s = (a, b) -> s = a ++ b /\ all_blank a /\ all_chars (fun c => In c ["009"; "010"; "032"]%char) a.
Proof.
  revert a b. induction s as [|c s IH]; intros a b H; cbn [span_white] in H; [injection H as <- <-; repeat split|]. destruct (whiteb c) eqn:W; [|injection H as <- <-; repeat split].
  destruct (span_white s) as [a' b']. injection H as <- <-. destruct (IH a' b' eq_refl) as (-> & A & B).
  assert (J : In c ["009"; "010"; "032"]%char). { unfold whiteb in W. apply orb_prop in W as [W|W]; [apply orb_prop in W as [W|W]|]; apply Ascii.eqb_eq in W; subst c; simpl; tauto. }
  split; [reflexivity|]. split; (split; [|assumption]); [|exact J]. unfold blank. simpl in *. tauto.
Qed.

Lemma startswith_true p s : startswith p s = true -> exists r, s = p ++ r.
Proof. unfold startswith. destruct (strip_prefix p s) eqn:E; [|discriminate]. intros _. apply strip_prefix_app in E. eauto. Qed.
Lemma some3 {A B C} (a a' : A) (b b' : B) (c c' : C) : Some (a, b, c) = Some (a', b', c') -> a = a' /\ b = b' /\ c = c'.
Proof. intros H. injection H as -> -> ->. auto. Qed.
Lemma scan_attrs_spec fuel s attrs a r : scan_attrs fuel s = Some (attrs, a, r) -> s = a ++ r /\ attrs_as attrs a.
Proof.
  revert s attrs a r. induction fuel as [|fuel IH]; intros s attrs a r H; cbn [scan_attrs] in H; [discriminate|].
  destruct (startswith ">" s || startswith "/" s); [apply some3 in H as (<- & <- & <-); split; [reflexivity|constructor]|].
  destruct (strip_prefix " " s) as [s1|] eqn:E1; [|discriminate]. apply strip_prefix_app in E1 as ->.
  destruct (startswith ">" s1 || startswith "/" s1); [apply some3 in H as (<- & <- & <-); split; [reflexivity|constructor]|].
  destruct (span_chars s1) as [b s2] eqn:E2. apply span_chars_app in E2 as ->.
  destruct (strip_prefix ":" s2) as [s3|] eqn:E3.
  - apply strip_prefix_app in E3 as ->. destruct (span_chars s3) as [n s4] eqn:E4. apply span_chars_app in E4 as ->.
    destruct (strip_prefix "=""" s4) as [s5|] eqn:E5; [|discriminate]. apply strip_prefix_app in E5 as ->.
    destruct (span_value s5) as [v s6] eqn:E6. apply span_value_app in E6 as [-> V]. destruct (strip_prefix """" s6) as [s7|] eqn:E7; [|discriminate]. apply strip_prefix_app in E7 as ->.
    destruct (scan_attrs fuel s7) as [[[attrs' t] r']|] eqn:S; [|discriminate]. apply IH in S as [-> A].
    destruct (nameb n && nameb b) eqn:N; [|discriminate]. apply andb_prop in N as [N P]. apply nameb_name in N, P. apply some3 in H as (<- & <- & <-). split; [now rewrite !str_app_assoc|].
    apply (aa_attr n); [now constructor|exact V|exact A].
  - destruct (strip_prefix "=""" s2) as [s5|] eqn:E5; [|discriminate]. apply strip_prefix_app in E5 as ->.
    destruct (span_value s5) as [v s6] eqn:E6. apply span_value_app in E6 as [-> V]. destruct (strip_prefix """" s6) as [s7|] eqn:E7; [|discriminate]. apply strip_prefix_app in E7 as ->.
    destruct (scan_attrs fuel s7) as [[[attrs' t] r']|] eqn:S; [|discriminate]. apply IH in S as [-> A].
    destruct (nameb b) eqn:N; [|discriminate]. apply nameb_name in N. apply some3 in H as (<- & <- & <-). split; [now rewrite !str_app_assoc|].
    apply (aa_attr b); [now constructor|exact V|exact A].
Qed.

(** ** Ways to write *)
Definition white (w : string) : Prop := all_blank w /\ all_chars (fun c => In c ["009"; "010"; "032"]%char) w.
Lemma all_blank_app a b : all_blank a -> all_blank b -> all_blank (a ++ b).
Proof. induction a as [|c a IH]; cbn [append all_blank]; tauto. Qed.
Lemma white_app a b : white a -> white b -> white (a ++ b).
Proof. intros [A B] [C D]. split; [now apply all_blank_app|]. rewrite all_chars_app. tauto. Qed.
Lemma lays_white w xs s : white w -> lays_all xs s -> lays_all xs (w ++ s).
Proof.
  intros W H. destruct H as [v B C|v x s cs b B C X A].
  - destruct (white_app w v W) as [D E]; [now split|]. now constructor.
  - destruct (white_app w v W) as [D E]; [now split|]. rewrite <- str_app_assoc. now constructor.
Qed.
Lemma lays_app xs ys s t : lays_all xs s -> lays_all ys t -> lays_all (xs ++ ys) (s ++ t).
Proof.
  revert s. induction xs as [|x xs IH]; intros s X Y.
  - inversion X; subst. cbn [app]. apply lays_white; [now split|exact Y].
  - inversion X; subst. cbn [app]. rewrite !str_app_assoc. constructor; auto.
Qed.
Lemma lays_one x s : lays x s -> lays_all [x] s.
Proof.
  intros X. assert (E : s = "" ++ s ++ "") by now rewrite str_app_nil. rewrite E. constructor; [exact I|exact I|exact X|]. constructor; exact I.
Qed.

Section Sound.
Variable other : val -> string.
Notation render_all := (render_all other).
Notation same := (same other).

Lemma prefix_name p t : prefix_ok p t = true -> name t.
Proof. destruct p; cbn [prefix_ok]; [apply nameb_name|]. intros H. apply nameb_name. apply existsb_exists in H as (x & J & E). apply String.eqb_eq in E as ->. destruct J as [<-|[<-|[]]]; reflexivity. Qed.
Definition qnodes (q : qname) : list tnode := map part_node (qparts q).
Lemma qname_sound q c :
  match qname_text other c q with
  | Good (n, t) => writes n t /\ render_all (qnodes q) c = Ok t
  | Fails e => render_all (qnodes q) c = Raise e
  | Bad => True
  end.
Proof.
  unfold qname_text, qnodes, qparts. destruct (q_prefix q) as [p|]; cbn [map].
  - rewrite !render_cons, !render_part. destruct (part_text other c p) as [p'|e]; cbn [lift obind bind]; [|reflexivity].
    cbn [part_node render bind]. destruct (part_text other c (q_local q)) as [n|e]; cbn [lift obind bind]; [|reflexivity].
    destruct (prefix_ok p p' && nameb n) eqn:N; [|exact I]. apply andb_prop in N as [P N]. split; [constructor; [now apply (prefix_name p)|now apply nameb_name]|]. cbn. now rewrite str_app_nil.
  - rewrite !render_cons, !render_part. destruct (part_text other c (q_local q)) as [n|e]; cbn [lift obind bind]; [|reflexivity].
    destruct (nameb n) eqn:N; [|exact I]. split; [constructor; now apply nameb_name|]. cbn. now rewrite str_app_nil.
Qed.

(** Rendering [ns] gives what [o] says, and then [rest]. *)
Definition gives (P : list xml -> string -> Prop) (ns : list tnode) (c : vdict) (o : outcome (list xml)) (rest : list tnode) : Prop :=
  match o with
  | Good xs => exists s, P xs s /\ render_all ns c = bind (render_all rest c) (fun t => Ok (s ++ t))
  | Fails e => render_all ns c = Raise e
  | Bad => True
  end.
Definition after_mark (xs : list xml) (s : string) : Prop := exists x, xs = [x] /\ lays x ("<" ++ s).

Lemma close_nodes q ps : map part_node (close q ps) = (map part_node ps ++ TData "</" :: qnodes q ++ [TData ">"])%list.
Proof. unfold close, qnodes. rewrite !map_app. cbn [map part_node]. now rewrite map_app. Qed.

Lemma scan_open_spec fuel ns o : scan_open fuel ns = Some o ->
  match o with
  | Closed i ns' => forall c, gives after_mark ns c (rtree other i c) ns'
  | Open q attrs a ns' => same ns (qnodes q ++ TData (a ++ ">") :: ns') /\ attrs_as attrs a
  end.
Proof.
  unfold scan_open. intros H. destruct (scan_name ns) as [q|]; [|discriminate]. destruct (expect (qparts q) ns) as [[|[d| | | |] ns1]|] eqn:E; try discriminate.
  apply (expect_same other) in E. fold (qnodes q) in E. destruct (scan_attrs fuel d) as [[[attrs a] d1]|] eqn:SA; [|discriminate]. apply scan_attrs_spec in SA as [-> A].
  destruct (strip_prefix ">" d1) as [d2|] eqn:G.
  - apply strip_prefix_app in G as ->. cbv zeta in H. set (t := scan_text (TData d2 :: ns1)) in *. clearbody t. destruct (expect (close q [t]) (TData d2 :: ns1)) as [ns2|] eqn:X.
    + injection H as <-. intros c. apply (expect_same other) in X. rewrite close_nodes in X. cbn [map app] in X.
      cbn [rtree]. unfold gives. rewrite (E c), render_app. pose proof (qname_sound q c) as Q. destruct (qname_text other c q) as [[n u]|e|]; cbn [obind]; [|now rewrite Q|exact I].
      destruct Q as [W Q]. rewrite Q. cbn [bind snd]. rewrite <- str_app_assoc. rewrite same_split, render_cons. cbn [render bind]. rewrite (X c), render_cons, render_part.
      destruct (part_text other c t) as [tt|e]; cbn [lift obind bind]; [|reflexivity].
      exists (u ++ a ++ ">" ++ tt ++ "</" ++ u ++ ">"). split; [eexists; split; [reflexivity|now apply (sh_text n)]|].
      rewrite render_cons. cbn [render bind]. rewrite <- app_assoc, render_app, Q. cbn [bind app]. rewrite render_cons. cbn [render bind]. destruct (render_all ns2 c); cbn [bind]; [|reflexivity]. now rewrite !str_app_assoc.
    + injection H as <-. split; [|exact A]. eapply same_trans; [exact E|]. apply same_app. rewrite <- str_app_assoc. intros c. rewrite (same_split other (a ++ ">") d2). reflexivity.
  - destruct (strip_prefix "/>" d1) as [d2|] eqn:G2; [|discriminate]. apply strip_prefix_app in G2 as ->. injection H as <-. intros c. cbn [rtree]. unfold gives. rewrite (E c), render_app.
    pose proof (qname_sound q c) as Q. destruct (qname_text other c q) as [[n u]|e|]; cbn [obind]; [|now rewrite Q|exact I].
    destruct Q as [W Q]. rewrite Q. cbn [bind snd]. rewrite <- str_app_assoc. rewrite same_split, render_cons. cbn [render bind].
    exists (u ++ a ++ "/>"). split; [eexists; split; [reflexivity|]; apply (sh_empty n u attrs a "" W A); now left|]. destruct (render_all (TData d2 :: ns1) c); cbn [bind]; [|reflexivity]. now rewrite !str_app_assoc.
Qed.

Lemma rtrees_app is js c : rtrees other (is ++ js) c = obind (rtrees other is c) (fun xs => obind (rtrees other js c) (fun ys => Good (xs ++ ys)%list)).
Proof.
  unfold rtrees. induction is as [|i is IH]; cbn [app concat_all obind].
  - now destruct (concat_all (fun i => rtree other i c) js).
  - destruct (rtree other i c) as [xs| |]; cbn [obind]; [|reflexivity|reflexivity]. fold (concat_all (fun i => rtree other i c) (is ++ js)). rewrite IH.
    fold (concat_all (fun i => rtree other i c) is). destruct (concat_all (fun i => rtree other i c) is); cbn [obind]; [|reflexivity|reflexivity].
    destruct (concat_all (fun i => rtree other i c) js); cbn [obind]; [|reflexivity|reflexivity]. now rewrite app_assoc.
Qed.
Lemma rtrees_one i c : rtrees other [i] c = rtree other i c.
Proof. unfold rtrees. cbn [concat_all]. destruct (rtree other i c); cbn [obind]; [|reflexivity|reflexivity]. now rewrite app_nil_r. Qed.

(** One after the other. *)
Lemma gives_after ns c is mid js rest : gives lays_all ns c (rtrees other is c) mid -> gives lays_all mid c (rtrees other js c) rest -> gives lays_all ns c (rtrees other (is ++ js) c) rest.
Proof.
  intros G H. rewrite rtrees_app. unfold gives in *. destruct (rtrees other is c) as [xs|e|]; cbn [obind]; [|exact G|exact I]. destruct G as (s & S & ->).
  destruct (rtrees other js c) as [ys|e|]; cbn [obind]; [|now rewrite H|exact I]. destruct H as (t & T & ->). exists (s ++ t). split; [now apply lays_app|].
  destruct (render_all rest c); cbn [bind]; [|reflexivity]. now rewrite str_app_assoc.
Qed.

Definition sound (fuel : nat) : Prop := forall ns is rest, scan fuel ns = Some (is, rest) -> forall c, gives lays_all ns c (rtrees other is c) rest.
Definition outcome_of (o : outcome (list xml)) (r : result string) : Prop :=
  match o with Good xs => exists s, lays_all xs s /\ r = Ok s | Fails e => r = Raise e | Bad => True end.
Lemma whole_sound fuel ns c : sound fuel -> outcome_of (rtrees other (whole (scan fuel ns)) c) (render_all ns c).
Proof.
  intros S. destruct (scan fuel ns) as [[is [|]]|] eqn:E; cbn [whole]; try exact I. specialize (S ns is [] E c). unfold gives, outcome_of in *. destruct (rtrees other is c); [|exact S|exact I].
  destruct S as (s & A & ->). exists s. split; [exact A|]. cbn. now rewrite str_app_nil.
Qed.

Lemma counted_sound {A} (f : nat -> A -> outcome (list xml)) (g : nat -> A -> result string) k l : (forall i v, outcome_of (f i v) (g i v)) -> outcome_of (concat_counted f k l) (counted g k l).
Proof.
  intros H. revert k. induction l as [|v l IH]; intros k; cbn [concat_counted counted]; [exists ""; split; [constructor; exact I|reflexivity]|].
  specialize (H k v). specialize (IH (S k)). fold (concat_counted f (S k) l). fold (counted g (S k) l). unfold outcome_of in *. destruct (f k v) as [xs|e|]; cbn [obind]; [|now rewrite H|exact I]. destruct H as (s & SA & ->). cbn [bind].
  destruct (concat_counted f (S k) l) as [ys|e|]; cbn [obind]; [|now rewrite IH|exact I]. destruct IH as (t & B & ->). exists (s ++ t). split; [now apply lays_app|reflexivity].
Qed.

Lemma gives_first n ns c i o : outcome_of o (render other n c) -> rtree other i c = o -> gives lays_all (n :: ns) c (rtrees other [i] c) ns.
Proof.
  intros H <-. rewrite rtrees_one. unfold gives. rewrite render_cons. destruct (rtree other i c); cbn [outcome_of] in H; [|now rewrite H|exact I].
  destruct H as (s & A & ->). exists s. split; [exact A|reflexivity].
Qed.

Lemma scan_sound fuel : sound fuel.
Proof.
  induction fuel as [|fuel IH]; intros ns is rest H c; cbn [scan] in H; [discriminate|].
  assert (AFTER : forall js ms n, (forall c, gives lays_all n c (rtrees other js c) ms) -> after js (scan fuel ms) = Some (is, rest) -> gives lays_all n c (rtrees other is c) rest).
  { intros js ms n G Q. destruct (scan fuel ms) as [[ks r]|] eqn:E; cbn [after] in Q; [|discriminate]. injection Q as <- <-. eapply gives_after; [apply G|]. now apply IH. }
  destruct ns as [|n ns]; [injection H as <- <-; exists ""; split; [constructor; exact I|reflexivity]|].
  destruct n as [d|e|e a b|x e body|[body|]].
  - destruct (span_white d) as [w d1] eqn:W. apply span_white_app in W as (-> & W1 & W2). assert (W : white w) by now split.
    assert (LEAD : forall is ms, gives lays_all (TData d1 :: ns) c (rtrees other is c) ms -> gives lays_all (TData (w ++ d1) :: ns) c (rtrees other is c) ms).
    { intros is' ms G. unfold gives in *. rewrite same_split, render_cons. cbn [render bind]. destruct (rtrees other is' c) as [xs|e|]; [|now rewrite G|exact I]. destruct G as (s & A & ->).
      exists (w ++ s). split; [now apply lays_white|]. destruct (render_all ms c); cbn [bind]; [|reflexivity]. now rewrite str_app_assoc. }
    destruct (d1 =? "") eqn:D.
    { apply String.eqb_eq in D as ->. apply LEAD. specialize (IH ns is rest H c). unfold gives in *. rewrite same_nil. exact IH. }
    destruct (startswith "</" d1).
    { injection H as <- <-. apply LEAD. exists "". split; [constructor; exact I|]. destruct (render_all (TData d1 :: ns) c); reflexivity. }
    destruct (strip_prefix "<" d1) as [r|] eqn:L; [|discriminate]. apply strip_prefix_app in L as ->. apply LEAD. clear LEAD D.
    destruct (scan_open fuel (TData r :: ns)) as [[i ms|q attrs a ms]|] eqn:O; [| |discriminate]; apply scan_open_spec in O.
    + eapply AFTER; [|exact H]. intros k. specialize (O k). rewrite rtrees_one. unfold gives in *. rewrite same_split, render_cons. cbn [render bind].
      destruct (rtree other i k) as [xs|e|]; [|now rewrite O|exact I]. destruct O as (s & (y & -> & S) & ->). exists ("<" ++ s). split; [now apply lays_one|].
      destruct (render_all ms k); cbn [bind]; reflexivity.
    + destruct O as [O A]. destruct (scan fuel ms) as [[cs ms2]|] eqn:C; [|discriminate]. destruct (expect (close q []) ms2) as [ms3|] eqn:X; [|discriminate].
      apply (expect_same other) in X. rewrite close_nodes in X. cbn [map app] in X. eapply AFTER; [|exact H]. intros k. specialize (IH ms cs ms2 C k). rewrite rtrees_one.
      unfold gives in *. rewrite same_split, render_cons. cbn [render bind]. rewrite (O k), render_app. cbn [rtree].
      pose proof (qname_sound q k) as Q. destruct (qname_text other k q) as [[n u]|e|]; cbn [obind]; [|now rewrite Q|exact I]. destruct Q as [Wr Q]. rewrite Q. cbn [bind snd].
      rewrite render_cons. cbn [render bind]. fold (rtrees other cs k). destruct (rtrees other cs k) as [xs|e|]; cbn [obind]; [|now rewrite IH|exact I]. destruct IH as (s & S & ->).
      exists ("<" ++ u ++ a ++ ">" ++ s ++ "</" ++ u ++ ">"). split; [apply lays_one; now apply (sh_node n)|].
      rewrite (X k), render_cons. cbn [render bind]. rewrite <- app_assoc, render_app, Q. cbn [bind app]. rewrite render_cons. cbn [render bind]. destruct (render_all ms3 k); cbn [bind]; [|reflexivity]. now rewrite !str_app_assoc.
  - discriminate.
  - eapply AFTER; [|exact H]. intros k. eapply gives_first; [|reflexivity]. cbn [rtree render]. destruct (eval other k e) as [v|x]; cbn [lift obind bind]; [|reflexivity].
    destruct (truth v); apply whole_sound; exact IH.
  - eapply AFTER; [|exact H]. intros k. eapply gives_first; [|reflexivity]. cbn [rtree render]. destruct (eval other k e) as [v|y]; cbn [lift obind bind]; [|reflexivity].
    destruct (iterate v) as [l|y]; cbn [lift obind bind]; [|reflexivity]. apply counted_sound. intros i u. apply whole_sound; exact IH.
  - eapply AFTER; [|exact H]. intros k. pose proof (whole_sound fuel body k IH) as G. unfold gives, outcome_of in *. rewrite render_cons. cbn [render]. fold (render_all body k).
    destruct (rtrees other (whole (scan fuel body)) k); [|now rewrite G|exact I]. destruct G as (s & S & ->). exists s. split; [exact S|reflexivity].
  - eapply AFTER; [|exact H]. intros k. exact I.
Qed.

(** A template with well-formed mark-up prints its tree. *)
Lemma scan_whole fuel ns is c : scan fuel ns = Some (is, []) -> outcome_of (rtrees other is c) (render_all ns c).
Proof.
  intros H. pose proof (scan_sound fuel ns is [] H c) as G. unfold gives, outcome_of in *. destruct (rtrees other is c); [|exact G|exact I].
  destruct G as (s & S & ->). exists s. split; [exact S|]. cbn. now rewrite str_app_nil.
Qed.
End Sound.

(** ** The namespaces of the names *)
Definition familiar_uri (u : string) : bool := (u =? "") || existsb (String.eqb u) familiar.
Definition knows (sc : scope) (p : string) : bool := match lookup p sc with Some _ => true | None => false end.
Definition qname_ok (sc : scope) (q : qname) : bool :=
  match q_prefix q with None => true | Some (PLit p) => knows sc p | Some (POut _) => forallb (knows sc) prefixes end.
Definition attr_eqb (a b : string * string) : bool := (fst a =? fst b) && (snd a =? snd b).
Fixpoint attrs_eqb (a b : list (string * string)) : bool :=
  match a, b with [], [] => true | x :: a, y :: b => attr_eqb x y && attrs_eqb a b | _, _ => false end.
Definition plain_attr (a : string * string) : string * string := (plain_name (fst a), snd a).
(** An element's own declarations, if its names are all right. *)
Definition element_ok (sc : scope) (q : qname) (raw : list (string * string)) : option scope :=
  match declarations raw with
  | None => None
  | Some ds =>
    let sc := (ds ++ sc)%list in
    match attribute_names sc raw with
    | Some l => if qname_ok sc q && forallb (fun d => familiar_uri (snd d)) ds && distinct (map fst raw) && distinct (map fst l) && attrs_eqb (map plain_attr l) (plain_attrs raw)
      then Some ds else None
    | None => None
    end
  end.
Fixpoint item_ok (sc : scope) (i : item) : bool :=
  match i with
  | IText q raw _ _ | IEmpty q raw _ => match element_ok sc q raw with Some _ => true | None => false end
  | INode q raw _ cs => match element_ok sc q raw with Some ds => forallb (item_ok (ds ++ sc)%list) cs | None => false end
  | IIf _ a b => forallb (item_ok sc) a && forallb (item_ok sc) b
  | IFor _ _ body => forallb (item_ok sc) body
  | IBad => true
  end.

Lemma attrs_eqb_eq a b : attrs_eqb a b = true -> a = b.
Proof.
  revert b. induction a as [|[x y] a IH]; intros [|[u v] b] H; try discriminate; [reflexivity|]. cbn [attrs_eqb] in H. apply andb_prop in H as [E H]. apply andb_prop in E as [E F]. apply String.eqb_eq in E, F. cbn [fst snd] in *. subst.
  f_equal. now apply IH.
Qed.
Definition all_familiar (sc : scope) : Prop := Forall (fun d => familiar_uri (snd d) = true) sc.
Lemma familiar_uri_spec u : familiar_uri u = true -> u = "" \/ In u familiar.
Proof.
  intros H. apply orb_prop in H as [H|H]; [left; now apply String.eqb_eq|right]. apply existsb_exists in H as (x & J & E). apply String.eqb_eq in E. now subst.
Qed.
(** Prefixes are not bound to the empty namespace. *)
Definition bound (sc : scope) : Prop := all_familiar sc /\ Forall (fun d => fst d <> "" -> snd d <> "") sc.
Lemma declarations_bound raw ds : declarations raw = Some ds -> Forall (fun d => fst d <> "" -> snd d <> "") ds.
Proof.
  revert ds. induction raw as [|[q v] raw IH]; intros ds H; cbn [declarations] in H; [injection H as <-; constructor|]. destruct (declarations raw) as [l|]; [|discriminate]. specialize (IH l eq_refl).
  destruct (q =? "xmlns"); [injection H as <-; constructor; [intros N; now elim N|exact IH]|]. destruct (split_colon q) as [[p n]|]; [|injection H as <-; exact IH].
  destruct (negb (p =? "xmlns")); [injection H as <-; exact IH|]. destruct ((n =? "xml") || (n =? "xmlns") || (v =? "")) eqn:B; [discriminate|]. injection H as <-. constructor; [|exact IH].
  intros _. cbn [snd]. apply orb_false_iff in B as [_ B]. now apply String.eqb_neq.
Qed.
Lemma lookup_in p sc u : lookup p sc = Some u -> In (p, u) sc.
Proof.
  unfold lookup. induction sc as [|[k v] sc IH]; cbn [get]; [discriminate|]. destruct (String.eqb_spec p k) as [->|N]; [intros [= ->]; now left|intros H; right; now apply IH].
Qed.
Lemma bound_prefix sc p u : bound sc -> name p -> lookup p sc = Some u -> In u familiar.
Proof.
  intros [F B] [N _] L. apply lookup_in in L. unfold all_familiar in F. rewrite Forall_forall in B, F. specialize (B _ L N). specialize (F _ L). apply familiar_uri_spec in F. cbn [snd] in *. tauto.
Qed.
Lemma bound_default sc p u : bound sc -> lookup p sc = Some u -> u <> "" -> In u familiar.
Proof. intros [F _] L N. apply lookup_in in L. unfold all_familiar in F. rewrite Forall_forall in F. specialize (F _ L). apply familiar_uri_spec in F. cbn [snd] in *. tauto. Qed.

Section Qualified.
Variable other : val -> string.
Lemma qname_means sc c q n w : bound sc -> qname_ok sc q = true -> qname_text other c q = Good (n, w) -> exists m, element_name sc w = Some m /\ plain_name m = n.
Proof.
  intros B O H. unfold qname_text in H. unfold qname_ok in O. destruct (q_prefix q) as [p|].
  - destruct (part_text other c p) as [t|] eqn:T; cbn [lift obind] in H; [|discriminate]. destruct (part_text other c (q_local q)) as [l|]; cbn [lift obind] in H; [|discriminate].
    destruct (prefix_ok p t && nameb l) eqn:K; [|discriminate]. injection H as <- <-. apply andb_prop in K as [P N]. apply nameb_name in N. pose proof (prefix_name p t P) as Np.
    assert (L : knows sc t = true).
    { destruct p as [x|e]; cbn [prefix_ok] in *; [injection T as <-; exact O|]. apply existsb_exists in P as (x & J & E). apply String.eqb_eq in E as ->. exact (proj1 (forallb_forall _ _) O x J). }
    unfold knows in L. destruct (lookup t sc) as [u|] eqn:U; [|discriminate]. exists (clark u l). unfold element_name, prefixed_name. pose proof (split_colon_prefix t (proj2 Np) l) as SC. cbn [append] in SC |- *. rewrite SC. rewrite U. split; [reflexivity|].
    apply (named_plain (expanded u l) l). apply na_expanded; [now apply (bound_prefix sc t)|exact N].
  - destruct (part_text other c (q_local q)) as [l|]; cbn [lift obind] in H; [|discriminate]. destruct (nameb l) eqn:N; [|discriminate]. injection H as <- <-. apply nameb_name in N.
    unfold element_name. rewrite split_colon_none by exact (proj2 N). destruct (lookup "" sc) as [u|] eqn:U; [destruct (String.eqb_spec u "") as [->|NE]|].
    + exists l. split; [reflexivity|]. apply named_plain. now apply na_local.
    + exists (clark u l). split; [reflexivity|]. apply (named_plain (expanded u l) l). apply na_expanded; [now apply (bound_default sc "")|exact N].
    + exists l. split; [reflexivity|]. apply named_plain. now apply na_local.
Qed.

(** The qualified trees [rs] mean the trees [xs] in the scope. *)
Definition qualified (sc : scope) (xs rs : list xml) : Prop :=
  exists es, all_some (expand sc) rs = Some es /\ map plain_xml es = xs /\ forallb familiarb rs = true.
Lemma qualified_nil sc : qualified sc [] [].
Proof. exists []. repeat split. Qed.
Lemma all_some_app {A B} (f : A -> option B) a b x y : all_some f a = Some x -> all_some f b = Some y -> all_some f (a ++ b) = Some (x ++ y)%list.
Proof.
  revert x. induction a as [|k a IH]; intros x H K; cbn [all_some app] in *; [injection H as <-; exact K|]. destruct (f k) as [z|]; [|discriminate]. fold (all_some f a) in H. fold (all_some f (a ++ b)).
  destruct (all_some f a) as [l|]; [|discriminate]. injection H as <-. now rewrite (IH l eq_refl K).
Qed.
Lemma qualified_app sc xs rs ys ss : qualified sc xs rs -> qualified sc ys ss -> qualified sc (xs ++ ys)%list (rs ++ ss)%list.
Proof.
  intros (es & A & B & C) (fs & D & E & F). exists (es ++ fs)%list. split; [now apply all_some_app|]. rewrite map_app, forallb_app, B, E, C, F. auto.
Qed.
Lemma qualified_one sc q raw t cs rs ds c n w : bound sc -> element_ok sc q raw = Some ds -> qname_text other c q = Good (n, w) -> qualified (ds ++ sc)%list cs rs ->
  qualified sc [Elem n (plain_attrs raw) t cs] [Elem w raw t rs].
Proof.
  intros B O H (es & A & M & F). unfold element_ok in O. destruct (declarations raw) as [l|] eqn:D; [|discriminate]. cbv zeta in O. destruct (attribute_names (l ++ sc)%list raw) as [attrs|] eqn:AN; [|discriminate].
  destruct (_ && _) eqn:K in O; [|discriminate]. injection O as ->. apply andb_prop in K as [K P]. apply andb_prop in K as [K K3]. apply andb_prop in K as [K K2]. apply andb_prop in K as [Q FD].
  assert (B' : bound (ds ++ sc)%list).
  { destruct B as [B1 B2]. split; apply Forall_app; split; try assumption; [|now apply (declarations_bound raw)]. apply Forall_forall. intros d J. exact (proj1 (forallb_forall _ _) FD d J). }
  destruct (qname_means _ c q n w B' Q H) as (m & E & N). exists [Elem m attrs t es]. cbn [all_some expand]. rewrite D. cbv zeta. rewrite E, AN. unfold all_some in A |- *. rewrite A, K2, K3. cbn [andb]. split; [reflexivity|].
  split; [cbn [map plain_xml]; rewrite N, M; f_equal; f_equal; now apply attrs_eqb_eq|]. cbn [forallb familiarb]. rewrite andb_true_r, F, andb_true_r. unfold declared_familiarb. rewrite D. exact FD.
Qed.
Lemma element_bound sc q raw ds : bound sc -> element_ok sc q raw = Some ds -> bound (ds ++ sc)%list.
Proof.
  intros [B1 B2] O. unfold element_ok in O. destruct (declarations raw) as [l|] eqn:D; [|discriminate]. cbv zeta in O. destruct (attribute_names (l ++ sc)%list raw) as [attrs|] eqn:AN; [|discriminate].
  destruct (_ && _) eqn:K in O; [|discriminate]. injection O as ->. apply andb_prop in K as [K _]. apply andb_prop in K as [K _]. apply andb_prop in K as [K _]. apply andb_prop in K as [_ FD].
  split; apply Forall_app; split; try assumption; [|now apply (declarations_bound raw)]. apply Forall_forall. intros d J. exact (proj1 (forallb_forall _ _) FD d J).
Qed.

(** With or without prefixes, it is the same tree. *)
Definition same_outcome (sc : scope) (o r : outcome (list xml)) : Prop :=
  match o with Good xs => exists rs, r = Good rs /\ qualified sc xs rs | Fails e => r = Fails e | Bad => r = Bad end.
Lemma same_concat {A} sc (f g : A -> outcome (list xml)) l : (forall a, In a l -> same_outcome sc (f a) (g a)) -> same_outcome sc (concat_all f l) (concat_all g l).
Proof.
  induction l as [|a l IH]; intros H; [exists []; split; [reflexivity|apply qualified_nil]|]. cbn [concat_all]. pose proof (H a (or_introl eq_refl)) as Ha. specialize (IH (fun x J => H x (or_intror J))).
  fold (concat_all f l). fold (concat_all g l). unfold same_outcome in *. destruct (f a) as [xs|e|]; cbn [obind]; [|now rewrite Ha|now rewrite Ha]. destruct Ha as (rs & -> & Q). cbn [obind].
  destruct (concat_all f l) as [ys|e|]; cbn [obind]; [|now rewrite IH|now rewrite IH]. destruct IH as (ss & -> & R). cbn [obind]. eexists. split; [reflexivity|now apply qualified_app].
Qed.
Lemma same_counted {A} sc (f g : nat -> A -> outcome (list xml)) k l : (forall i a, same_outcome sc (f i a) (g i a)) -> same_outcome sc (concat_counted f k l) (concat_counted g k l).
Proof.
  intros H. revert k. induction l as [|a l IH]; intros k; [exists []; split; [reflexivity|apply qualified_nil]|]. cbn [concat_counted]. specialize (H k a). specialize (IH (S k)).
  fold (concat_counted f (S k) l). fold (concat_counted g (S k) l). unfold same_outcome in *. destruct (f k a) as [xs|e|]; cbn [obind]; [|now rewrite H|now rewrite H]. destruct H as (rs & -> & Q). cbn [obind].
  destruct (concat_counted f (S k) l) as [ys|e|]; cbn [obind]; [|now rewrite IH|now rewrite IH]. destruct IH as (ss & -> & R). cbn [obind]. eexists. split; [reflexivity|now apply qualified_app].
Qed.
Lemma tree_same : forall i sc c, bound sc -> item_ok sc i = true -> same_outcome sc (tree other i c) (rtree other i c).
Proof.
  fix IH 1. intros i sc c B O.
  assert (L : forall is sc c, (forall i, In i is -> bound sc -> item_ok sc i = true -> same_outcome sc (tree other i c) (rtree other i c)) -> bound sc -> forallb (item_ok sc) is = true ->
    same_outcome sc (concat_all (fun i => tree other i c) is) (concat_all (fun i => rtree other i c) is)).
  { clear. intros is sc c H B O. apply same_concat. intros i J. apply H; [exact J|exact B|]. exact (proj1 (forallb_forall _ _) O i J). }
  assert (ALL : forall (is : list item) sc c, (fix go (l : list item) : Prop := match l with [] => True | i :: l => (forall sc c, bound sc -> item_ok sc i = true -> same_outcome sc (tree other i c) (rtree other i c)) /\ go l end) is ->
    bound sc -> forallb (item_ok sc) is = true -> same_outcome sc (concat_all (fun i => tree other i c) is) (concat_all (fun i => rtree other i c) is)).
  { clear - L. intros is sc c H. apply L. intros i J B O. induction is as [|k is IHi]; [destruct J|]. destruct H as [H1 H2]. destruct J as [<-|J]; [now apply H1|now apply IHi]. }
  assert (ELEM : forall q attrs ds c n w t cs rs, element_ok sc q attrs = Some ds -> qname_text other c q = Good (n, w) -> qualified (ds ++ sc)%list cs rs -> qualified sc [Elem n (plain_attrs attrs) t cs] [Elem w attrs t rs])
    by (intros; eapply qualified_one; eassumption).
  destruct i as [q attrs a t|q attrs a|q attrs a cs|e a b|x e body|]; cbn [item_ok tree rtree] in *.
  - destruct (element_ok sc q attrs) as [ds|] eqn:E; [|discriminate]. destruct (qname_text other c q) as [[n w]|er|] eqn:Q; cbn [obind]; [|reflexivity|reflexivity].
    destruct (part_text other c t) as [s|er]; cbn [lift obind]; [|reflexivity]. eexists. split; [reflexivity|]. eapply ELEM; eauto. apply qualified_nil.
  - destruct (element_ok sc q attrs) as [ds|] eqn:E; [|discriminate]. destruct (qname_text other c q) as [[n w]|er|] eqn:Q; cbn [obind]; [|reflexivity|reflexivity].
    eexists. split; [reflexivity|]. eapply ELEM; eauto. apply qualified_nil.
  - destruct (element_ok sc q attrs) as [ds|] eqn:E; [|discriminate]. destruct (qname_text other c q) as [[n w]|er|] eqn:Q; cbn [obind]; [|reflexivity|reflexivity].
    assert (G : same_outcome (ds ++ sc)%list (concat_all (fun i => tree other i c) cs) (concat_all (fun i => rtree other i c) cs)).
    { apply ALL; [|now apply (element_bound sc q attrs)|exact O]. clear - IH. induction cs as [|i cs IHc]; [exact I|]. split; [exact (IH i)|exact IHc]. }
    unfold same_outcome in G |- *. destruct (concat_all (fun i => tree other i c) cs) as [xs|er|]; cbn [obind]; [|now rewrite G|now rewrite G]. destruct G as (rs & -> & G). cbn [obind]. eexists. split; [reflexivity|]. eapply ELEM; eauto.
  - apply andb_prop in O as [O1 O2]. destruct (eval other c e) as [v|er]; cbn [lift obind]; [|reflexivity].
    destruct (truth v); (apply ALL; [|exact B|assumption]); clear - IH; [induction a as [|i a IHa]|induction b as [|i b IHa]]; (exact I || (split; [exact (IH i)|exact IHa])).
  - destruct (eval other c e) as [v|er]; cbn [lift obind]; [|reflexivity]. destruct (iterate v) as [l|er]; cbn [lift obind]; [|reflexivity]. apply same_counted. intros k u.
    apply ALL; [|exact B|exact O]. clear - IH. induction body as [|i body IHb]; [exact I|]. split; [exact (IH i)|exact IHb].
  - reflexivity.
Qed.
Lemma trees_same is sc c : bound sc -> forallb (item_ok sc) is = true -> same_outcome sc (trees other is c) (rtrees other is c).
Proof. intros B O. apply same_concat. intros i J. apply tree_same; [exact B|]. exact (proj1 (forallb_forall _ _) O i J). Qed.
Lemma bound_nil : bound [].
Proof. split; constructor. Qed.

Definition result_of (o : outcome (list xml)) (r : result string) : Prop :=
  match o with Good xs => exists s, shows_all xs s /\ r = Ok s | Fails e => r = Raise e | Bad => True end.
(** A template with well-formed mark-up and proper names prints its tree. *)
Lemma scan_shows fuel ns is c : scan fuel ns = Some (is, []) -> forallb (item_ok []) is = true -> result_of (trees other is c) (render_all other ns c).
Proof.
  intros S O. pose proof (scan_whole other fuel ns is c S) as W. pose proof (trees_same is [] c bound_nil O) as Q. unfold outcome_of, same_outcome, result_of in *.
  destruct (trees other is c) as [xs|e|]; [|now rewrite Q in W|exact I]. destruct Q as (rs & E & es & X & P & F). rewrite E in W. destruct W as (s & L & R). exists s. split; [|exact R].
  assert (M : means_all [] rs es) by (exact (proj2 expand_means rs s L [] es X)). exists rs, es. split; [exact L|]. split; [exact M|]. subst xs.
  apply (proj2 means_plainly _ _ _ M); [constructor| |]. { intros p [_ (a & b & H & _)]. destruct a; discriminate H. }
  apply Forall_forall. intros r J. apply familiarb_spec. exact (proj1 (forallb_forall _ _) F r J).
Qed.
End Qualified.
