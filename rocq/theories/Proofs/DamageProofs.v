(** Damaged texts are no XML. *)
From Coq Require Import ZArith String Ascii List Bool Lia.
From Verif.Base Require Import Result Dict PyStr.
From Verif.Model Require Import Text Normalize Xml XmlText.
From Verif.Spec Require Import TextSpec XmlTextSpec.
From Verif.Proofs Require Import TextProofs XmlTextProofs.
Import ListNotations.
Local Open Scope string_scope.

Lemma app_split (a b c d : string) : a ++ b = c ++ d -> (exists e, a = c ++ e /\ d = e ++ b) \/ (exists x e, c = a ++ String x e /\ b = String x e ++ d).
Proof.
  revert c. induction a as [|x a IH]; intros c E; cbn [append] in E.
  - destruct c as [|y c]; [left; exists ""; now split|]. right. exists y, c. now split.
  - destruct c as [|y c]; [left; exists (String x a); now split|]. cbn [append] in E. injection E as <- E.
    destruct (IH c E) as [(e & -> & ->)|(z & e & -> & ->)]; [left; now exists e|right; now exists z, e].
Qed.

(** ** Characters: the place after a text *)
Fixpoint lex_to (s : string) (p : place) : option (list token * place) :=
  let push t o := option_map (fun x => (t :: fst x, snd x)) o in
  match s with
  | EmptyString => Some ([], p)
  | String c r =>
    match p with
    | Content k =>
      if Ascii.eqb c "<" then lex_to r (InTag "" None)
      else if Ascii.eqb c "&" then lex_to r (InEntity "")
      else if Ascii.eqb c "]" then push (Char c) (lex_to r (Content (S k)))
      else if Ascii.eqb c ">" && (2 <=? k)%nat then None
      else if legal c then push (Char (if Ascii.eqb c "013" then "010"%char else c)) (lex_to r (Content 0))
      else None
    | InTag raw None =>
      if Ascii.eqb c ">" then push (Tag raw) (lex_to r (Content 0))
      else if Ascii.eqb c "<" then None
      else lex_to r (InTag (snoc raw c) (if is_quote c then Some c else None))
    | InTag raw (Some q) =>
      if Ascii.eqb c q then lex_to r (InTag (snoc raw c) None)
      else if Ascii.eqb c "<" || Ascii.eqb c "&" then None
      else lex_to r (InTag (snoc raw c) (Some q))
    | InEntity name =>
      if Ascii.eqb c ";" then match entity name with Some d => push (Char d) (lex_to r (Content 0)) | None => None end
      else lex_to r (InEntity (snoc name c))
    end
  end.
Lemma lex_app s r : forall p, lex (s ++ r) p = match lex_to s p with Some (ts, p') => then_ ts (lex r p') | None => None end.
Proof.
  induction s as [|c s IH]; intros p; cbn [append lex_to]; [now rewrite then_nil|]. cbn [lex].
  destruct p as [k|raw [q|]|nm];
    repeat match goal with |- context [if ?b then _ else _] => destruct b | |- context [match entity ?n with _ => _ end] => destruct (entity n) end;
    rewrite ?IH; try reflexivity; match goal with |- context [lex_to s ?p] => destruct (lex_to s p) as [[ts p']|] end; cbn; try reflexivity; now destruct (lex r p').
Qed.
Lemma lex_split s r p ts : lex (s ++ r) p = Some ts -> exists ts1 p' ts2, lex_to s p = Some (ts1, p') /\ lex r p' = Some ts2 /\ ts = (ts1 ++ ts2)%list.
Proof.
  rewrite lex_app. destruct (lex_to s p) as [[ts1 p']|]; [|discriminate]. destruct (lex r p') as [ts2|] eqn:E; [|discriminate]. cbn. intros [= <-]. exists ts1, p', ts2. now repeat split.
Qed.
Lemma lex_to_app s r : forall p, lex_to (s ++ r) p = match lex_to s p with Some (ts, p') => option_map (fun x => ((ts ++ fst x)%list, snd x)) (lex_to r p') | None => None end.
Proof.
  induction s as [|c s IH]; intros p; cbn [append]; [cbn [lex_to]; now destruct (lex_to r p) as [[]|]|]. cbn [lex_to].
  destruct p as [k|raw [q|]|nm];
    repeat match goal with |- context [if ?b then _ else _] => destruct b | |- context [match entity ?n with _ => _ end] => destruct (entity n) end;
    rewrite ?IH; try reflexivity; match goal with |- context [lex_to s ?p] => destruct (lex_to s p) as [[ts p']|] end; cbn; try reflexivity; now destruct (lex_to r p') as [[]|].
Qed.
Lemma lex_is s p : lex s p = match lex_to s p with Some (ts, Content _) => Some ts | _ => None end.
Proof.
  assert (E : lex s p = lex (s ++ "") p) by (f_equal; induction s; cbn; congruence). rewrite E, lex_app. destruct (lex_to s p) as [[ts p']|]; [|reflexivity].
  destruct p'; cbn; try reflexivity. now rewrite app_nil_r.
Qed.

Definition has (c : ascii) (s : string) : Prop := exists a b, s = a ++ String c b.
Lemma has_snoc c s d : has c s -> has c (snoc s d).
Proof. intros (a & b & ->). exists a, (snoc b d). unfold snoc. now rewrite str_app_assoc. Qed.
Lemma entity_known nm d : entity nm = Some d -> In nm ["amp"; "lt"; "gt"; "quot"; "apos"].
Proof.
  unfold entity. intros H. simpl.
  destruct (string_dec nm "amp") as [->|N1]; [tauto|]. destruct (string_dec nm "lt") as [->|N2]; [tauto|]. destruct (string_dec nm "gt") as [->|N3]; [tauto|].
  destruct (string_dec nm "quot") as [->|N4]; [tauto|]. destruct (string_dec nm "apos") as [->|N5]; [tauto|]. exfalso.
  repeat match type of H with context [match ?x with _ => _ end] => destruct x; try discriminate H end; congruence.
Qed.
Lemma no_entity r : forall nm, has "<" nm -> lex r (InEntity nm) = None.
Proof.
  induction r as [|c r IH]; intros nm H; [reflexivity|]. cbn [lex]. destruct (Ascii.eqb c ";"); [|apply IH; now apply has_snoc].
  destruct (entity nm) as [d|] eqn:E; [|reflexivity]. exfalso. apply entity_known in E. destruct H as (a & b & H).
  assert (F : no_char "<" nm = false) by (rewrite H, no_char_app; cbn [no_char]; now rewrite Ascii.eqb_refl, andb_false_r).
  simpl in E. repeat (destruct E as [<-|E]; [discriminate F|]). contradiction.
Qed.
(** A tag begins only between tags. *)
Definition proper (p : place) : Prop := match p with InTag _ (Some q) => is_quote q = true | _ => True end.
Lemma lex_to_proper s : forall p ts p', proper p -> lex_to s p = Some (ts, p') -> proper p'.
Proof.
  assert (P : forall t o ts p', option_map (fun x : list token * place => (t :: fst x, snd x)) o = Some (ts, p') -> exists ts', o = Some (ts', p')).
  { intros t [[ts' p'']|] ts p' E; [|discriminate]. injection E as _ <-. now exists ts'. }
  induction s as [|c s IH]; intros p ts p' H E; cbn [lex_to] in E; [now injection E as _ <-|].
  destruct p as [k|raw [q|]|nm];
    repeat match type of E with
    | context [if is_quote ?b then _ else _] => destruct (is_quote b) eqn:?
    | context [if ?b then _ else _] => destruct b
    | context [match entity ?n with _ => _ end] => destruct (entity n)
    end; try discriminate E; try (apply P in E as (ts' & E)); (eapply IH; [|exact E]); cbn; auto.
Qed.
Lemma tag_begins r p ts : proper p -> lex (String "<" r) p = Some ts -> exists k, p = Content k.
Proof.
  destruct p as [k|raw [q|]|nm]; intros P H; [now exists k| | |].
  - cbn [lex] in H. destruct (Ascii.eqb "<" q) eqn:E; [|now cbn in H]. apply Ascii.eqb_eq in E. subst q. discriminate P.
  - discriminate H.
  - exfalso. cbn [lex] in H. change (Ascii.eqb "<" ";") with false in H. cbv iota in H. rewrite no_entity in H; [discriminate|]. exists nm, "". reflexivity.
Qed.
Lemma before_tag s r ts : lex (s ++ "<" ++ r) (Content 0) = Some ts ->
  exists ts1 k ts2, lex_to s (Content 0) = Some (ts1, Content k) /\ lex ("<" ++ r) (Content k) = Some ts2 /\ ts = (ts1 ++ ts2)%list.
Proof.
  intros H. apply lex_split in H as (ts1 & p & ts2 & L & H & ->). destruct (tag_begins r p ts2) as (k & ->); [eapply lex_to_proper; [|exact L]; exact I|exact H|].
  now exists ts1, k, ts2.
Qed.

(** ** Tags: the elements that are open after some of them *)
Fixpoint build_to (ts : list token) (stack : list frame) (root : option xml) : option (list frame * option xml) :=
  match ts with
  | [] => Some (stack, root)
  | Char c :: ts =>
    match stack with
    | [] => if is_space c then build_to ts [] root else None
    | f :: stack => build_to ts (add_char c f :: stack) root
    end
  | Tag raw :: ts =>
    match markup_of raw with
    | None => None
    | Some Instruction => build_to ts stack root
    | Some (Start q attrs) => match stack, root with [], Some _ => None | _, _ => build_to ts (new_frame q attrs :: stack) root end
    | Some (Empty q attrs) =>
      match stack, root with
      | [], Some _ => None
      | [], None => build_to ts [] (Some (finish (new_frame q attrs)))
      | f :: stack, _ => build_to ts (add_child (finish (new_frame q attrs)) f :: stack) root
      end
    | Some (End_ q) =>
      match stack with
      | [] => None
      | f :: stack =>
        if f_qname f =? q then
          match stack with
          | [] => build_to ts [] (Some (finish f))
          | g :: stack => build_to ts (add_child (finish f) g :: stack) root
          end
        else None
      end
    end
  end.
Lemma build_app a b : forall stack root, build (a ++ b) stack root = match build_to a stack root with Some (s, r) => build b s r | None => None end.
Proof.
  induction a as [|[raw|c] a IH]; intros stack root; cbn [app build build_to]; [reflexivity| |].
  - destruct (markup_of raw) as [[q attrs|q|q attrs|]|]; try reflexivity; try apply IH; destruct stack as [|f stack], root as [x|]; try reflexivity; try apply IH;
      destruct (f_qname f =? q); try reflexivity; destruct stack; apply IH.
  - destruct stack; [|apply IH]. destruct (is_space c); [apply IH|reflexivity].
Qed.
Lemma build_is a stack root : build a stack root = match build_to a stack root with Some ([], r) => r | _ => None end.
Proof. rewrite <- (app_nil_r a) at 1. rewrite build_app. destruct (build_to a stack root) as [[[|f s] r]|]; reflexivity. Qed.

Definition instructions (ts : list token) : Prop := forall raw, In (Tag raw) ts -> markup_of raw = Some Instruction.
(** After the end of the message only instructions and white space. *)
Lemma after_root ts : forall y x, build ts [] (Some y) = Some x -> instructions ts.
Proof.
  induction ts as [|[raw|c] ts IH]; intros y x H r I; cbn [build] in H; [contradiction| |].
  - destruct (markup_of raw) as [[q attrs|q|q attrs|]|] eqn:M; try discriminate H. destruct I as [[= <-]|I]; [exact M|now apply (IH y x H)].
  - destruct (is_space c); [|discriminate H]. destruct I as [E|I]; [discriminate E|now apply (IH y x H)].
Qed.
Lemma no_root ts : instructions ts -> build ts [] None = None.
Proof.
  induction ts as [|[raw|c] ts IH]; intros H; cbn [build]; [reflexivity| |].
  - rewrite (H raw) by now left. apply IH. intros r I. apply H. now right.
  - destruct (is_space c); [|reflexivity]. apply IH. intros r I. apply H. now right.
Qed.
(** Fewer brackets before a text are no obstacle. *)
Lemma lex_fewer s : forall j k ts, (j <= k)%nat -> lex s (Content k) = Some ts -> lex s (Content j) = Some ts.
Proof.
  induction s as [|c s IH]; intros j k ts L H; [exact H|]. cbn [lex] in *. destruct (Ascii.eqb c "<"); [exact H|]. destruct (Ascii.eqb c "&"); [exact H|].
  destruct (Ascii.eqb c "]").
  - destruct (lex s (Content (S k))) as [l|] eqn:E; [|discriminate H]. rewrite (IH (S j) (S k) l) by (exact E || lia). exact H.
  - destruct (Ascii.eqb c ">"); cbn [andb] in *; [|exact H]. destruct (2 <=? k)%nat eqn:E; [discriminate H|]. apply Nat.leb_gt in E.
    destruct (2 <=? j)%nat eqn:F; [apply Nat.leb_le in F; lia|exact H].
Qed.

(** ** The damages *)
Lemma end_quiet q : all_chars qname_char q -> quiet ("/" ++ q).
Proof.
  intros Q. apply quiet_app; [|now apply quiet_qname]. apply quiet_chars. split; [|exact I]. simpl. intuition discriminate.
Qed.
Lemma end_of q : q <> "" -> all_chars qname_char q -> markup_of ("/" ++ q) = Some (End_ q).
Proof.
  intros N Q. cbn [append markup_of]. change (Ascii.eqb "/" "/") with true. cbv iota. rewrite rstrip_ends; [reflexivity|].
  destruct (last_char q N) as (p & c & ->). exists p, c. split; [reflexivity|]. apply all_chars_app in Q as [_ [Q _]]. now apply qname_char_ink.
Qed.
Lemma lex_end q k r : all_chars qname_char q -> lex ("</" ++ q ++ ">" ++ r) (Content k) = then_ [Tag ("/" ++ q)] (lex r (Content 0)).
Proof. intros Q. change ("</" ++ q ++ ">" ++ r) with ("<" ++ ("/" ++ q) ++ ">" ++ r). apply lex_tag. now apply end_quiet. Qed.

Lemma cut_short a q x p c r : q <> "" -> all_chars qname_char q -> read_raw (a ++ "</" ++ q ++ ">") = Some x -> a ++ "</" ++ q ++ ">" = p ++ String c r -> read_raw p = None.
Proof.
  intros N Q R E. unfold read_raw in *. destruct (lex (a ++ "</" ++ q ++ ">") (Content 0)) as [ts|] eqn:L; [|discriminate R].
  pose proof L as L'. rewrite E in L. apply lex_split in L as (ts1 & p' & ts2 & L1 & L2 & ->).
  rewrite lex_is, L1. destruct p' as [k| |]; try reflexivity. destruct (build ts1 [] None) as [y|] eqn:B; [|reflexivity]. exfalso.
  rewrite build_is in B. rewrite build_app in R. destruct (build_to ts1 [] None) as [[[|f st] root]|]; try discriminate B. subst root.
  apply after_root in R. destruct (app_split _ _ _ _ E) as [(e & -> & S)|(z & e & -> & S)].
  - rewrite S in L2. apply lex_split in L2 as (ts3 & p3 & ts4 & L3 & L4 & ->).
    destruct (tag_begins ("/" ++ q ++ ">") p3 ts4) as (k3 & ->); [eapply lex_to_proper; [|exact L3]; exact I|exact L4|].
    pose proof (lex_end q k3 "" Q) as L5. change (q ++ ">" ++ "") with (q ++ ">") in L5. rewrite L5 in L4. injection L4 as <-.
    specialize (R ("/" ++ q)). rewrite end_of in R by assumption. discriminate R. apply in_app_iff. right. now left.
  - apply (before_tag a ("/" ++ q ++ ">")) in L' as (ts3 & k3 & _ & L3 & _).
    assert (F : exists raw, lex_to (String z e) (Content k3) = Some ([], InTag raw None)).
    { cbn [append] in S. injection S as <- S. cbn [lex_to]. change (Ascii.eqb "<" "<") with true. cbv iota.
      change (String "/" (q ++ ">")) with (("/" ++ q) ++ ">") in S. destruct (app_split _ _ _ _ S) as [(g & G & S')|(z' & g & G & S')].
      - exists e. assert (A : all_chars (fun c => ~ In c ["034"; "039"; "060"; "062"]%char) e).
        { assert (A : all_chars (fun c => ~ In c ["034"; "039"; "060"; "062"]%char) ("/" ++ q)).
          { split; [simpl; intuition discriminate|]. eapply all_chars_impl; [|exact Q]. intros d D J. refine (qname_char_not d d D _ eq_refl). simpl in *. tauto. }
          rewrite G in A. now apply all_chars_app in A as [A _]. }
        clear -A. assert (W : forall raw, lex_to e (InTag raw None) = Some ([], InTag (raw ++ e) None)); [|exact (W "")].
        induction e as [|d e IH]; intros raw; cbn [lex_to]; [now rewrite str_app_nil|]. destruct A as [D A].
        assert (D' : forall o, In o ["034"; "039"; "060"; "062"]%char -> Ascii.eqb d o = false) by (intros o O; apply Ascii.eqb_neq; intros ->; contradiction).
        rewrite (D' ">"%char), (D' "<"%char) by (simpl; tauto). unfold is_quote. rewrite (D' """"%char), (D' "'"%char) by (simpl; tauto). cbn [orb]. rewrite IH by exact A.
        unfold snoc. now rewrite str_app_assoc.
      - exfalso. cbn [append] in S'. injection S' as <- S'. destruct g; discriminate S'. }
    destruct F as (raw & F). assert (G : lex_to (a ++ String z e) (Content 0) = Some (ts3, InTag raw None)).
    { rewrite lex_to_app, L3, F. cbn. now rewrite app_nil_r. }
    rewrite G in L1. discriminate L1.
Qed.

(** Another text after it that is XML too. *)
Lemma doubled a b x y : read_raw a = Some x -> read_raw b = Some y -> read_raw (a ++ b) = None.
Proof.
  unfold read_raw. intros A B. destruct (lex a (Content 0)) as [ts1|] eqn:L1; [|discriminate A]. destruct (lex b (Content 0)) as [ts2|] eqn:L2; [|discriminate B].
  rewrite lex_app. rewrite lex_is in L1. destruct (lex_to a (Content 0)) as [[ts [k| |]]|]; try discriminate L1. injection L1 as ->.
  destruct (lex b (Content k)) as [ts3|] eqn:L3; [|reflexivity]. cbn [then_ option_map]. apply (lex_fewer b 0 k) in L3; [|lia]. rewrite L2 in L3. injection L3 as <-.
  rewrite build_app. rewrite build_is in A. destruct (build_to ts1 [] None) as [[[|f s] r]|]; try discriminate A. subst r.
  destruct (build ts2 [] (Some x)) eqn:C; [|reflexivity]. apply after_root in C. apply no_root in C. congruence.
Qed.

(** Another name at the end of an element. *)
Lemma renamed_end a b q q' x : q <> "" -> q' <> "" -> all_chars qname_char q -> all_chars qname_char q' -> q <> q' ->
  read_raw (a ++ "</" ++ q ++ ">" ++ b) = Some x -> read_raw (a ++ "</" ++ q' ++ ">" ++ b) = None.
Proof.
  intros N N' Q Q' D. unfold read_raw. intros R. destruct (lex (a ++ "</" ++ q ++ ">" ++ b) (Content 0)) as [ts|] eqn:L; [|discriminate R].
  apply (before_tag a ("/" ++ q ++ ">" ++ b)) in L as (ts1 & k & ts2 & L1 & L2 & ->). rewrite lex_app, L1.
  change ("<" ++ "/" ++ q ++ ">" ++ b) with ("</" ++ q ++ ">" ++ b) in L2. rewrite lex_end in L2 by exact Q. rewrite lex_end by exact Q'.
  destruct (lex b (Content 0)) as [ts3|]; [|discriminate L2]. cbn [then_ option_map app] in *. injection L2 as <-. rewrite build_app in *.
  destruct (build_to ts1 [] None) as [[st root]|]; [|reflexivity]. cbn [build] in *. pose proof (end_of q N Q) as M. pose proof (end_of q' N' Q') as M'. cbn [append] in M, M', R |- *. rewrite M in R. rewrite M'.
  destruct st as [|f st]; [reflexivity|]. destruct (f_qname f =? q) eqn:E; [|discriminate R]. apply String.eqb_eq in E. subst q.
  destruct (f_qname f =? q') eqn:E; [|reflexivity]. apply String.eqb_eq in E. contradiction.
Qed.

(** Another name at its beginning. *)
Lemma other_frame ts : forall fs f f' st root x, f_qname f <> f_qname f' -> build ts (fs ++ f :: st) root = Some x -> build ts (fs ++ f' :: st) root = None.
Proof.
  induction ts as [|[raw|c] ts IH]; intros fs f f' st root x D H; cbn [build] in *.
  - destruct fs; reflexivity.
  - destruct (markup_of raw) as [[q attrs|q|q attrs|]|]; try reflexivity.
    + destruct fs as [|g fs]; cbn [app] in *; [apply (IH [new_frame q attrs] f f' st root x D H)|apply (IH (new_frame q attrs :: g :: fs) f f' st root x D H)].
    + destruct fs as [|g fs]; cbn [app] in *.
      * destruct (f_qname f =? q) eqn:E; [|discriminate H]. apply String.eqb_eq in E. destruct (f_qname f' =? q) eqn:E'; [|reflexivity]. apply String.eqb_eq in E'. congruence.
      * destruct (f_qname g =? q); [|reflexivity]. destruct fs as [|h fs]; cbn [app] in *.
        -- apply (IH [] (add_child (finish g) f) (add_child (finish g) f') st root x D H).
        -- apply (IH (add_child (finish g) h :: fs) f f' st root x D H).
    + destruct fs as [|g fs]; cbn [app] in *.
      * apply (IH [] (add_child (finish (new_frame q attrs)) f) (add_child (finish (new_frame q attrs)) f') st root x D H).
      * apply (IH (add_child (finish (new_frame q attrs)) g :: fs) f f' st root x D H).
    + now apply (IH fs f f' st root x D).
  - destruct fs as [|g fs]; cbn [app] in *; [apply (IH [] (add_char c f) (add_char c f') st root x D H)|apply (IH (add_char c g :: fs) f f' st root x D H)].
Qed.
Lemma renamed_start a b n n' q q' attrs s x : writes n q -> writes n' q' -> attrs_as attrs s -> q <> q' ->
  read_raw (a ++ "<" ++ q ++ s ++ ">" ++ b) = Some x -> read_raw (a ++ "<" ++ q' ++ s ++ ">" ++ b) = None.
Proof.
  intros W W' AA D. unfold read_raw. intros R. destruct (lex (a ++ "<" ++ q ++ s ++ ">" ++ b) (Content 0)) as [ts|] eqn:L; [|discriminate R].
  assert (T : forall n q, writes n q -> forall k, lex ("<" ++ q ++ s ++ ">" ++ b) (Content k) = then_ [Tag (q ++ s)] (lex b (Content 0))).
  { intros m u U k. rewrite <- (str_app_assoc u s). apply lex_tag. apply quiet_app; [apply quiet_qname, (writes_chars m u U)|now apply (quiet_attrs attrs)]. }
  apply (before_tag a (q ++ s ++ ">" ++ b)) in L as (ts1 & k & ts2 & L1 & L2 & ->). rewrite lex_app, L1. rewrite (T n q W) in L2. rewrite (T n' q' W').
  destruct (lex b (Content 0)) as [ts3|]; [|discriminate L2]. cbn [then_ option_map app] in *. injection L2 as <-. rewrite build_app in *.
  destruct (build_to ts1 [] None) as [[st root]|]; [|reflexivity]. cbn [build] in *.
  pose proof (start_markup n q attrs s W AA) as M. pose proof (start_markup n' q' attrs s W' AA) as M'. rewrite M in R. rewrite M'.
  destruct st as [|f st].
  - destruct root; [reflexivity|]. apply (other_frame ts3 [] (new_frame q attrs) (new_frame q' attrs) [] None x D R).
  - apply (other_frame ts3 [] (new_frame q attrs) (new_frame q' attrs) (f :: st) root x D R).
Qed.
