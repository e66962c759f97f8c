(** Lemmas for C79. *)
From Coq Require Import ZArith String Ascii List Bool Lia Arith.
From Verif.Base Require Import Result Dict PyStr ListExtra.
From Verif.Model Require Import Text Normalize Xml XmlText.
From Verif.Spec Require Import TextSpec XmlTextSpec.
From Verif.Proofs Require Import TextProofs.
Import ListNotations.
Local Open Scope string_scope.

Scheme lays_ind2 := Minimality for lays Sort Prop with lays_all_ind2 := Minimality for lays_all Sort Prop.
Combined Scheme lays_mutual from lays_ind2, lays_all_ind2.

(** ** Flattening, piece by piece *)
Definition starts_ink (s : string) : Prop := exists c r, s = String c r /\ ~ blank c.
Definition ends_ink (s : string) : Prop := exists p c, s = p ++ String c "" /\ ~ blank c.
Definition keep (w : string) : string := if no_char newline w then w else "".

Lemma no_char_app c a b : no_char c (a ++ b) = no_char c a && no_char c b.
Proof. induction a as [|d a IH]; [reflexivity|]. simpl. now rewrite IH, andb_assoc. Qed.

Lemma ends_ink_app a b : ends_ink b -> ends_ink (a ++ b).
Proof. intros (p & c & -> & N). exists (a ++ p), c. now rewrite str_app_assoc. Qed.
Lemma ends_ink_tail a d b : ends_ink (a ++ String d b) -> blank d -> ends_ink b.
Proof.
  intros (p & c & E & N) D. revert p E. induction a as [|x a IH]; intros p E; cbn [append] in E.
  - destruct p as [|y p]; cbn [append] in E; injection E as -> E; [contradiction|]. exists p, c. auto.
  - destruct p as [|y p]; cbn [append] in E; injection E as -> E; [destruct a; discriminate|]. eauto.
Qed.
Lemma starts_ink_app a b : starts_ink a -> starts_ink (a ++ b).
Proof. intros (c & r & -> & N). exists c, (r ++ b). auto. Qed.

Lemma lstrip_ends a w : ends_ink a -> lstrip (a ++ w) = lstrip a ++ w.
Proof.
  intros (p & c & -> & N). induction p as [|x p IH]; cbn [append].
  - rewrite !lstrip_nonblank by exact N. reflexivity.
  - cbn [lstrip]. destruct (is_space x); [exact IH|reflexivity].
Qed.
Lemma rstrip_starts a l : starts_ink l -> rstrip (a ++ l) = a ++ rstrip l.
Proof.
  intros (c & r & -> & N). assert (NE : rstrip (String c r) <> "").
  { cbn [rstrip]. destruct (rstrip r); [|discriminate]. apply not_space_blank in N. now rewrite N. }
  induction a as [|x a IH]; cbn [append]; [reflexivity|]. change (rstrip (String x (a ++ String c r))) with
    (match rstrip (a ++ String c r) with "" => if is_space x then "" else String x "" | t => String x t end).
  rewrite IH. destruct (a ++ rstrip (String c r)) eqn:E; [|reflexivity]. destruct a; [contradiction|discriminate].
Qed.
Lemma rstrip_ends a : ends_ink a -> rstrip a = a.
Proof. intros (p & c & -> & N). apply rstrip_trimmed. intros p' c' E. assert (c = c'); [|congruence].
  revert p' E. induction p as [|x p IH]; intros [|y p'] E; cbn [append] in E; injection E as E; try (destruct p; discriminate); try (destruct p'; discriminate); subst; auto; eauto.
Qed.
Lemma lstrip_starts l : starts_ink l -> lstrip l = l.
Proof. intros (c & r & -> & N). now apply lstrip_nonblank. Qed.
Lemma lstrip_keeps_end a : ends_ink a -> ends_ink (lstrip a).
Proof.
  intros (p & c & -> & N). induction p as [|x p IH]; cbn [append].
  - rewrite lstrip_nonblank by exact N. exists "", c. auto.
  - cbn [lstrip]. destruct (is_space x); [exact IH|]. exists (String x p), c. auto.
Qed.

Lemma flatten_blank_front w b : all_blank w -> flatten_xml (w ++ b) = flatten_xml b.
Proof.
  intros W. remember (String.length w) as n eqn:En. revert w b W En. induction n as [n IH] using (well_founded_induction lt_wf). intros w b W ->.
  destruct (split_case newline w) as [N|(w1 & w2 & -> & N & L)].
  - destruct (split_case newline b) as [Nb|(l & r & -> & Nb & _)].
    + rewrite !flatten_one by (rewrite ?no_char_app, ?N, ?Nb; reflexivity). unfold strip. now rewrite lstrip_blank.
    + rewrite <- str_app_assoc, !flatten_more by (rewrite ?no_char_app, ?N, ?Nb; reflexivity). unfold strip. now rewrite lstrip_blank.
  - apply all_blank_app in W as [W1 W2]. cbn [all_blank] in W2. rewrite str_app_assoc. cbn [append]. rewrite flatten_more by exact N.
    assert (S1 : strip w1 = "") by (unfold strip; rewrite <- (str_app_nil w1), lstrip_blank by exact W1; reflexivity). rewrite S1. cbn [append].
    apply (IH (String.length w2) L w2 b); [apply W2|reflexivity].
Qed.

Lemma flatten_pieces a w b : ends_ink a -> all_blank w -> starts_ink b -> flatten_xml (a ++ w ++ b) = flatten_xml a ++ keep w ++ flatten_xml b.
Proof.
  intros A W B. remember (String.length a) as n eqn:En. revert a A En. induction n as [n IH] using (well_founded_induction lt_wf). intros a A ->.
  destruct (split_case newline a) as [N|(l & a' & -> & N & L)].
  - destruct (split_case newline w) as [Nw|(w1 & w2 & -> & Nw & _)].
    + unfold keep. rewrite Nw. destruct (split_case newline b) as [Nb|(l & r & -> & Nb & _)].
      * rewrite !flatten_one by (rewrite ?no_char_app, ?N, ?Nw, ?Nb; reflexivity). unfold strip.
        rewrite lstrip_ends by exact A. rewrite <- str_app_assoc, rstrip_starts by exact B. rewrite (lstrip_starts b) by exact B.
        rewrite (rstrip_ends (lstrip a)) by now apply lstrip_keeps_end. apply str_app_assoc.
      * assert (B' : starts_ink l).
        { destruct B as (c & r' & E & Nc). destruct l as [|d l]; cbn [append] in E; [injection E as E _|injection E as E _; exists d, l; rewrite E; auto]. elim Nc. rewrite <- E. apply newline_blank. }
        rewrite <- !str_app_assoc, !flatten_more by (rewrite ?no_char_app, ?N, ?Nw, ?Nb; reflexivity). rewrite (flatten_one a) by exact N. unfold strip.
        rewrite <- !str_app_assoc. f_equal. rewrite str_app_assoc. rewrite lstrip_ends by exact A. rewrite <- str_app_assoc, rstrip_starts by exact B'. rewrite (lstrip_starts l) by exact B'.
        now rewrite (rstrip_ends (lstrip a)) by now apply lstrip_keeps_end.
    + apply all_blank_app in W as [W1 W2]. cbn [all_blank] in W2. unfold keep. rewrite no_char_app. cbn [no_char]. rewrite Ascii.eqb_refl. cbn [negb andb]. rewrite andb_false_r. cbn [append].
      rewrite str_app_assoc. cbn [append]. rewrite <- str_app_assoc. rewrite flatten_more by (rewrite no_char_app, N, Nw; reflexivity).
      rewrite flatten_blank_front by apply W2. rewrite (flatten_one a) by exact N. f_equal. unfold strip. rewrite lstrip_ends by exact A. now rewrite rstrip_app.
  - assert (A' : ends_ink a') by (apply ends_ink_tail in A; [exact A|apply newline_blank]).
    rewrite str_app_assoc. cbn [append]. rewrite !flatten_more by exact N. rewrite (IH (String.length a') L a' A' eq_refl). symmetry. apply str_app_assoc.
Qed.

Lemma flatten_blank w : all_blank w -> flatten_xml w = "".
Proof. intros W. rewrite <- (str_app_nil w), flatten_blank_front by exact W. reflexivity. Qed.

Lemma flatten_blank_back b w : all_blank w -> flatten_xml (b ++ w) = flatten_xml b.
Proof.
  intros W. remember (String.length b) as n eqn:En. revert b En. induction n as [n IH] using (well_founded_induction lt_wf). intros b ->.
  destruct (split_case newline b) as [N|(l & r & -> & N & L)].
  - destruct (split_case newline w) as [Nw|(w1 & w2 & -> & Nw & _)].
    + rewrite !flatten_one by (rewrite ?no_char_app, ?N, ?Nw; reflexivity). destruct (strip_spec b) as (x & y & E & X & T & Y). rewrite E at 1.
      rewrite !str_app_assoc. apply strip_unique; [exact X|exact T|]. apply all_blank_app. auto.
    + apply all_blank_app in W as [W1 W2]. cbn [all_blank] in W2. rewrite <- str_app_assoc, flatten_more by (rewrite no_char_app, N, Nw; reflexivity).
      rewrite (flatten_blank w2) by apply W2. rewrite str_app_nil. rewrite (flatten_one b) by exact N.
      destruct (strip_spec b) as (x & y & E & X & T & Y). rewrite E at 1. rewrite !str_app_assoc. apply strip_unique; [exact X|exact T|]. apply all_blank_app. auto.
  - rewrite str_app_assoc. cbn [append]. rewrite !flatten_more by exact N. f_equal. exact (IH _ L r eq_refl).
Qed.

(** ** Characters *)
Lemma all_chars_app P a b : all_chars P (a ++ b) <-> all_chars P a /\ all_chars P b.
Proof. induction a as [|c a IH]; cbn [append all_chars]; [tauto|]. rewrite IH. tauto. Qed.
Lemma all_chars_impl (P Q : ascii -> Prop) s : (forall c, P c -> Q c) -> all_chars P s -> all_chars Q s.
Proof. intros H. induction s as [|c s IH]; cbn [all_chars]; [auto|]. intros [A B]. auto. Qed.
Lemma all_chars_flattening P s f : flattening s f -> all_chars P s -> all_chars P f.
Proof.
  intros F. induction F as [a m b A T B N|a m b s t A T B N F IH]; rewrite !all_chars_app; [tauto|]. cbn [all_chars]. tauto.
Qed.
Lemma all_chars_flatten P s : all_chars P s -> all_chars P (flatten_xml s).
Proof. apply all_chars_flattening, flatten_flattening. Qed.
Lemma all_chars_no c s : all_chars (fun d => d <> c) s -> no_char c s = true.
Proof. induction s as [|d s IH]; cbn [all_chars no_char]; [reflexivity|]. intros [A B]. rewrite IH by exact B. destruct (Ascii.eqb_spec d c); [contradiction|reflexivity]. Qed.
Lemma all_chars_keep P w : all_chars P w -> all_chars P (keep w).
Proof. unfold keep. destruct (no_char newline w); [auto|]. intros _. exact I. Qed.
Lemma all_blank_keep w : all_blank w -> all_blank (keep w).
Proof. unfold keep. destruct (no_char newline w); [auto|]. intros _. exact I. Qed.

Lemma name_char_not c d : name_char c -> In d ["034"; "039"; "038"; "060"; "062"; "010"; "009"; "032"; "047"; "063"; "033"; "058"; "061"]%char -> c <> d.
Proof. unfold name_char. intros N I E. subst d. simpl in I. repeat destruct I as [I|I]; try contradiction; subst c; vm_compute in N; intuition (discriminate || congruence). Qed.
Lemma name_char_ink c : name_char c -> ~ blank c.
Proof. unfold name_char, blank. intros N I. simpl in I. repeat destruct I as [I|I]; try contradiction; subst c; vm_compute in N; intuition (discriminate || congruence). Qed.

(** Characters of a written name. *)
Definition qname_char (c : ascii) : Prop := name_char c \/ c = ":"%char.
Lemma writes_chars n q : writes n q -> q <> "" /\ all_chars qname_char q.
Proof.
  intros [[N C]|p [Np Cp] [N C]].
  - split; [exact N|]. eapply all_chars_impl; [|exact C]. now left.
  - split; [destruct p; [contradiction|discriminate]|]. rewrite !all_chars_app. cbn [all_chars]. repeat split; try (eapply all_chars_impl; [|eassumption]; now left). now right.
Qed.
Lemma qname_char_not c d : qname_char c -> In d ["034"; "039"; "038"; "060"; "062"; "010"; "009"; "032"; "047"; "063"; "033"; "061"]%char -> c <> d.
Proof. intros [N| ->] I; [apply name_char_not; [exact N|simpl in *; tauto]|]. intros <-. simpl in I. repeat destruct I as [I|I]; try contradiction; discriminate. Qed.
Lemma qname_char_ink c : qname_char c -> ~ blank c.
Proof. intros [N| ->]; [now apply name_char_ink|]. unfold blank. simpl. intros I. repeat destruct I as [I|I]; try contradiction; discriminate. Qed.

Lemma last_char s : s <> "" -> exists p c, s = p ++ String c "".
Proof. induction s as [|c s IH]; [contradiction|]. intros _. destruct s as [|d s]; [exists "", c; reflexivity|]. destruct IH as (p & e & ->); [discriminate|]. exists (String c p), e. reflexivity. Qed.

Lemma attrs_no_newline attrs a : attrs_as attrs a -> no_char newline a = true.
Proof.
  assert (V : forall v, all_chars value_char v -> no_char newline v = true).
  { intros v H. apply all_chars_no. eapply all_chars_impl; [|exact H]. intros c N E. apply N. subst c. simpl. tauto. }
  assert (Nm : forall p, all_chars qname_char p -> no_char newline p = true).
  { intros v H. apply all_chars_no. eapply all_chars_impl; [|exact H]. intros c N. apply (qname_char_not c _ N). simpl. tauto. }
  intros A. induction A as [| |n q v attrs s W Hv A IH]; [reflexivity|reflexivity|]; rewrite !no_char_app, IH, (V v Hv).
  rewrite (Nm q) by apply (writes_chars _ _ W). reflexivity.
Qed.
Lemma writes_no_newline n q : writes n q -> no_char newline q = true.
Proof. intros W. apply all_chars_no. eapply all_chars_impl; [|apply (writes_chars _ _ W)]. intros c N. apply (qname_char_not c _ N). simpl. tauto. Qed.

Lemma less_ink : ~ blank "<". Proof. unfold blank. simpl. intros I. repeat destruct I as [I|I]; try contradiction; discriminate. Qed.
Lemma greater_ink : ~ blank ">". Proof. unfold blank. simpl. intros I. repeat destruct I as [I|I]; try contradiction; discriminate. Qed.

Lemma tag_flat s : no_char newline s = true -> flatten_xml ("<" ++ s ++ ">") = "<" ++ s ++ ">".
Proof.
  intros N. rewrite flatten_one by (cbn [append no_char]; rewrite no_char_app, N; reflexivity). unfold strip. rewrite lstrip_starts by (eexists _, _; split; [reflexivity|apply less_ink]).
  apply rstrip_ends. exists ("<" ++ s), ">"%char. split; [reflexivity|apply greater_ink].
Qed.
Lemma tag_starts s r : starts_ink (("<" ++ s ++ ">") ++ r). Proof. eexists _, _. split; [reflexivity|apply less_ink]. Qed.
Lemma tag_ends l s : ends_ink (l ++ "<" ++ s ++ ">"). Proof. exists (l ++ "<" ++ s), ">"%char. split; [now rewrite !str_app_assoc|apply greater_ink]. Qed.

(** ** The same element, up to white space *)
(** A text within one line stays as it is, and nothing but white space comes of white space. *)
Definition white (c : ascii) : Prop := In c ["009"; "010"; "032"]%char.
Definition same_text (t t' : string) : Prop := flatten_xml t = flatten_xml t' /\ (t <> "" -> no_char newline t = true -> t' = t) /\ (all_chars white t -> all_chars white t').
Lemma same_text_refl t : same_text t t. Proof. repeat split; auto. Qed.
Lemma white_blank w : all_chars white w -> all_blank w.
Proof. induction w as [|c w IH]; [exact (fun H => H)|]. intros [A B]. split; [|now apply IH]. unfold white in A. unfold blank. simpl in A |- *. intuition. Qed.
Inductive alike : xml -> xml -> Prop :=
| al n attrs t t' cs cs' : same_text t t' -> alikes cs cs' -> alike (Elem n attrs t cs) (Elem n attrs t' cs')
with alikes : list xml -> list xml -> Prop :=
| als_nil : alikes [] []
| als_cons x y xs ys : alike x y -> alikes xs ys -> alikes (x :: xs) (y :: ys).
Scheme alike_ind2 := Minimality for alike Sort Prop with alikes_ind2 := Minimality for alikes Sort Prop.
Combined Scheme alike_mutual from alike_ind2, alikes_ind2.

(** A text that the lexer takes as it is. *)
Definition lextext (t : string) : Prop := all_chars text_char t /\ exists w1 m w2, t = w1 ++ m ++ w2 /\ all_blank w1 /\ all_blank w2 /\ ~ part_of "]]>" m.
Inductive lexable : xml -> Prop :=
| lx n attrs t cs : lextext t -> Forall lexable cs -> lexable (Elem n attrs t cs).

Lemma lextext_nil : lextext "".
Proof. split; [exact I|]. exists "", "", "". repeat split. intros (b & c & E). destruct b; discriminate. Qed.

Lemma lays_edges : (forall x s, lays x s -> exists m, s = "<" ++ m ++ ">").
Proof.
  intros x s S. destruct S as [n q attrs a t W A|n q attrs a w W A Hw|n q attrs a cs b W A S].
  - exists (q ++ a ++ ">" ++ t ++ "</" ++ q). now rewrite !str_app_assoc.
  - exists (q ++ a ++ w ++ "/"). now rewrite !str_app_assoc.
  - exists (q ++ a ++ ">" ++ b ++ "</" ++ q). now rewrite !str_app_assoc.
Qed.

Lemma between_text l r t : ends_ink l -> starts_ink r -> all_chars text_char t -> (forall f, flattening t f -> ~ part_of "]]>" f) -> exists t',
  flatten_xml (l ++ t ++ r) = flatten_xml l ++ t' ++ flatten_xml r /\ same_text t t' /\ lextext t'.
Proof.
  intros El Sr C NP. destruct (strip_spec t) as (w1 & w2 & E & B1 & T & B2). set (m := strip t) in *.
  destruct (string_dec m "") as [M|M].
  - assert (BT : all_blank t) by (rewrite E, M; apply all_blank_app; auto). exists (keep t). split; [|split].
    + now rewrite flatten_pieces by assumption.
    + split; [rewrite !flatten_blank by auto using all_blank_keep; reflexivity|]. split; [|apply all_chars_keep]. intros _ NT. unfold keep. now rewrite NT.
    + split; [now apply all_chars_keep|]. exists (keep t), "", "". rewrite str_app_nil. repeat split; [now apply all_blank_keep|]. intros (b & c & X). destruct b; discriminate.
  - assert (Sm : starts_ink m) by (destruct m as [|c m']; [contradiction|]; exists c, m'; split; [reflexivity|]; apply (proj1 T c m' eq_refl)).
    assert (Em : ends_ink m) by (destruct (last_char m M) as (p & c & X); exists p, c; split; [exact X|]; apply (proj2 T p c X)).
    assert (FT : flatten_xml t = flatten_xml m) by (rewrite E, flatten_blank_front, flatten_blank_back by assumption; reflexivity).
    rewrite E in C. rewrite !all_chars_app in C. destruct C as (C1 & Cm & C2).
    exists (keep w1 ++ flatten_xml m ++ keep w2). split; [|split].
    + rewrite E, !str_app_assoc. rewrite flatten_pieces; [|exact El|exact B1|now apply starts_ink_app].
      now rewrite flatten_pieces by assumption.
    + split; [rewrite flatten_blank_front, flatten_blank_back by auto using all_blank_keep; now rewrite flatten_idempotent|]. split; [|intros WT; exfalso; apply M; unfold m, strip; rewrite <- (str_app_nil t), lstrip_blank by (now apply white_blank); reflexivity]. intros _ NT. rewrite E in NT. rewrite !no_char_app in NT.
      apply andb_true_iff in NT as [NT1 NT]. apply andb_true_iff in NT as [NTm NT2]. unfold keep. rewrite NT1, NT2, flatten_one by exact NTm. unfold strip. rewrite lstrip_starts, rstrip_ends by assumption. now rewrite <- E.
    + split; [rewrite !all_chars_app; auto using all_chars_keep, all_chars_flatten|]. exists (keep w1), (flatten_xml m), (keep w2). repeat split; auto using all_blank_keep.
      apply NP. rewrite <- FT. apply flatten_flattening.
Qed.
Lemma open_text n q attrs a t : writes n q -> attrs_as attrs a -> all_chars text_char t -> (forall f, flattening t f -> ~ part_of "]]>" f) -> exists t',
  flatten_xml ("<" ++ q ++ a ++ ">" ++ t ++ "</" ++ q ++ ">") = "<" ++ q ++ a ++ ">" ++ t' ++ "</" ++ q ++ ">" /\ same_text t t' /\ lextext t'.
Proof.
  intros W A C NP. pose proof (writes_no_newline _ _ W) as Nq. pose proof (attrs_no_newline _ _ A) as Na.
  assert (RE : forall u, "<" ++ q ++ a ++ ">" ++ u ++ "</" ++ q ++ ">" = ("<" ++ (q ++ a) ++ ">") ++ u ++ ("<" ++ ("/" ++ q) ++ ">")) by (intros u; now rewrite !str_app_assoc).
  destruct (between_text ("<" ++ (q ++ a) ++ ">") ("<" ++ ("/" ++ q) ++ ">") t) as (t' & F & FT & L); [apply (tag_ends "" (q ++ a))|eexists _, _; split; [reflexivity|apply less_ink]|exact C|exact NP|].
  exists t'. split; [|auto]. rewrite !RE, F. rewrite !tag_flat by (rewrite no_char_app, Nq, ?Na; reflexivity). reflexivity.
Qed.


Lemma flat_lays :
  (forall x s, lays x s -> unmarked_xml x -> exists x', lays x' (flatten_xml s) /\ alike x x' /\ lexable x') /\
  (forall cs b, lays_all cs b -> (forall x, In x cs -> unmarked_xml x) -> forall l r, ends_ink l -> starts_ink r ->
    exists cs' b', flatten_xml (l ++ b ++ r) = flatten_xml l ++ b' ++ flatten_xml r /\ lays_all cs' b' /\ alikes cs cs' /\ Forall lexable cs').
Proof.
  apply lays_mutual.
  - intros n q attrs a t W A U. inversion U as [? ? ? ? [C NP] _]; subst. destruct (open_text _ _ _ _ _ W A C NP) as (t' & F & FT & L).
    exists (Elem q attrs t' []). rewrite F. split; [now apply (sh_text n)|]. split; [constructor; [exact FT|constructor]|]. now constructor.
  - intros n q attrs a w W A Hw U. exists (Elem q attrs "" []).
    assert (F : flatten_xml ("<" ++ q ++ a ++ w ++ "/>") = "<" ++ q ++ a ++ w ++ "/>").
    { replace ("<" ++ q ++ a ++ w ++ "/>") with ("<" ++ (q ++ a ++ w ++ "/") ++ ">") by now rewrite !str_app_assoc. apply tag_flat.
      rewrite !no_char_app, (writes_no_newline _ _ W), (attrs_no_newline _ _ A). destruct Hw as [-> | ->]; reflexivity. }
    rewrite F. split; [now apply (sh_empty n)|]. split; [constructor; [apply same_text_refl|constructor]|]. constructor; [apply lextext_nil|constructor].
  - intros n q attrs a cs b W A S IH U. inversion U as [? ? ? ? _ UC]; subst.
    assert (RE : forall u, "<" ++ q ++ a ++ ">" ++ u ++ "</" ++ q ++ ">" = ("<" ++ (q ++ a) ++ ">") ++ u ++ ("<" ++ ("/" ++ q) ++ ">")) by (intros u; now rewrite !str_app_assoc).
    destruct (IH UC ("<" ++ (q ++ a) ++ ">") ("<" ++ ("/" ++ q) ++ ">")) as (cs' & b' & F & S' & AL & L).
    + apply (tag_ends "" (q ++ a)).
    + eexists _, _. split; [reflexivity|apply less_ink].
    + exists (Elem q attrs "" cs'). rewrite RE, F. rewrite !tag_flat by (rewrite no_char_app, (writes_no_newline _ _ W), ?(attrs_no_newline _ _ A); reflexivity).
      rewrite <- RE. split; [now apply (sh_node n)|]. split; [constructor; [apply same_text_refl|assumption]|]. constructor; [apply lextext_nil|exact L].
  - intros w B Wh _ l r El Sr. exists [], (keep w). rewrite flatten_pieces by assumption. split; [reflexivity|]. split; [constructor; [now apply all_blank_keep|now apply all_chars_keep]|]. split; constructor.
  - intros w x s cs b B Wh S IHx SA IHcs U l r El Sr. destruct (IHx (U x (or_introl eq_refl))) as (x' & Sx & Ax & Lx).
    destruct (lays_edges _ _ S) as (m & Es).
    destruct (IHcs (fun y I => U y (or_intror I)) s r) as (cs' & b' & F & S' & AL & L); [rewrite Es; apply (tag_ends "" m)|exact Sr|].
    exists (x' :: cs'), (keep w ++ flatten_xml s ++ b'). split; [|split; [|split]].
    + rewrite !str_app_assoc. rewrite flatten_pieces; [|exact El|exact B|rewrite Es; apply tag_starts]. rewrite F. reflexivity.
    + constructor; [now apply all_blank_keep|now apply all_chars_keep|exact Sx|exact S'].
    + now constructor.
    + now constructor.
Qed.

(** ** Reading: characters *)
Definition then_ (l : list token) (o : option (list token)) : option (list token) := option_map (app l) o.
Definition chars (s : string) : list token := map Char (list_ascii_of_string s).
Lemma then_app a b o : then_ a (then_ b o) = then_ (a ++ b) o.
Proof. destruct o; simpl; [now rewrite app_assoc|reflexivity]. Qed.
Lemma before_then t o : before t o = then_ [t] o. Proof. reflexivity. Qed.
Lemma then_nil o : then_ [] o = o. Proof. now destruct o. Qed.
Lemma before_then2 t l o : before t (then_ l o) = then_ (t :: l) o. Proof. now destruct o. Qed.
Lemma chars_app a b : chars (a ++ b) = (chars a ++ chars b)%list.
Proof. unfold chars. induction a as [|c a IH]; [reflexivity|]. cbn [append list_ascii_of_string map app]. now rewrite IH. Qed.

Definition brackets (k : nat) : string := match k with 0 => "" | 1 => "]" | _ => "]]" end.
Lemma part_of_tail p c s : part_of p s -> part_of p (String c s).
Proof. intros (b & d & ->). exists (String c b), d. reflexivity. Qed.

Lemma text_char_legal c : text_char c -> legal c = true /\ Ascii.eqb c "<" = false /\ Ascii.eqb c "&" = false /\ Ascii.eqb c "013" = false.
Proof.
  intros (A & B & L). assert (X : legal c = true).
  { unfold legal. destruct L as [-> |[-> |L]]; [reflexivity|reflexivity|]. apply N.leb_le in L. rewrite L. now rewrite !orb_true_r. }
  split; [exact X|]. split; [now apply Ascii.eqb_neq|]. split; [now apply Ascii.eqb_neq|].
  apply Ascii.eqb_neq. intros ->. destruct L as [L|[L|L]]; [discriminate|discriminate|]. vm_compute in L. now apply L.
Qed.

Lemma lex_text m : all_chars text_char m -> forall k, ~ part_of "]]>" (brackets k ++ m) -> exists k', forall r, lex (m ++ r) (Content k) = then_ (chars m) (lex r (Content k')).
Proof.
  induction m as [|c m IH]; intros C k NP.
  - exists k. intros r. now rewrite then_nil.
  - destruct C as [Cc C]. destruct (text_char_legal c Cc) as (L & E1 & E2 & E3). destruct (Ascii.eqb_spec c "]") as [->|N].
    + destruct (IH C (S k)) as (k' & H).
      { intros P. apply NP. destruct k as [|[|k]]; [exact P|exact P|]. cbn [brackets append] in *. now apply part_of_tail. }
      exists k'. intros r. cbn [append lex]. change (Ascii.eqb "]" "<") with false. change (Ascii.eqb "]" "&") with false. change (Ascii.eqb "]" "]") with true. cbv iota. rewrite H.
      now rewrite before_then2.
    + destruct (IH C 0%nat) as (k' & H).
      { intros P. apply NP. cbn [brackets append] in P. clear - P. apply (part_of_tail _ c) in P. destruct k as [|[|k]]; cbn [brackets append]; auto using part_of_tail. }
      assert (G : Ascii.eqb c ">" && (2 <=? k)%nat = false).
      { destruct (Ascii.eqb_spec c ">") as [->|]; [|reflexivity]. destruct k as [|[|k]]; try reflexivity. elim NP. exists "", m. reflexivity. }
      exists k'. intros r. cbn [append lex]. rewrite E1, E2, G, L, E3. apply Ascii.eqb_neq in N. rewrite N, H. now rewrite before_then2.
Qed.

Lemma lex_blank w : all_chars text_char w -> all_blank w -> forall k, exists k', (k = 0%nat -> k' = 0%nat) /\ forall r, lex (w ++ r) (Content k) = then_ (chars w) (lex r (Content k')).
Proof.
  intros C B. induction w as [|c w IH]; intros k.
  - exists k. split; [auto|]. intros r. now rewrite then_nil.
  - destruct C as [Cc C], B as [Bc B]. destruct (text_char_legal c Cc) as (L & E1 & E2 & E3).
    assert (NE : Ascii.eqb c "]" = false /\ Ascii.eqb c ">" = false).
    { unfold blank in Bc. simpl in Bc. repeat destruct Bc as [<-|Bc]; try contradiction; auto. }
    destruct NE as [N1 N2]. destruct (IH C B 0%nat) as (k' & K & H). exists k'. split; [intros _; now apply K|]. intros r. cbn [append lex]. rewrite E1, E2, N1, N2, L, E3. cbn [andb].
    rewrite H. now rewrite before_then2.
Qed.

Lemma lex_lextext t : lextext t -> exists k', forall r, lex (t ++ r) (Content 0) = then_ (chars t) (lex r (Content k')).
Proof.
  intros (C & w1 & m & w2 & -> & B1 & B2 & NP). rewrite !all_chars_app in C. destruct C as (C1 & Cm & C2).
  destruct (lex_blank w1 C1 B1 0%nat) as (k1 & K1 & H1). rewrite (K1 eq_refl) in H1. destruct (lex_text m Cm 0%nat NP) as (k2 & H2). destruct (lex_blank w2 C2 B2 k2) as (k3 & _ & H3).
  exists k3. intros r. rewrite !str_app_assoc, H1, H2, H3, !then_app, !chars_app. now rewrite app_assoc.
Qed.

(** ** Reading: tags *)
Definition quiet (s : string) : Prop := forall raw r, lex (s ++ r) (InTag raw None) = lex r (InTag (raw ++ s) None).
Lemma quiet_app a b : quiet a -> quiet b -> quiet (a ++ b).
Proof. intros A B raw r. rewrite str_app_assoc, A, B. now rewrite str_app_assoc. Qed.
Lemma quiet_chars s : all_chars (fun c => ~ In c ["034"; "039"; "060"; "062"]%char) s -> quiet s.
Proof.
  induction s as [|c s IH]; intros C raw r; cbn [append]; [now rewrite str_app_nil|]. destruct C as [Cc C]. cbn [lex].
  assert (E1 : Ascii.eqb c ">" = false) by (apply Ascii.eqb_neq; intros ->; apply Cc; simpl; tauto).
  assert (E2 : Ascii.eqb c "<" = false) by (apply Ascii.eqb_neq; intros ->; apply Cc; simpl; tauto).
  assert (E3 : is_quote c = false).
  { unfold is_quote. apply orb_false_iff. split; apply Ascii.eqb_neq; intros ->; apply Cc; simpl; tauto. }
  rewrite E1, E2, E3, IH by exact C. unfold snoc. now rewrite str_app_assoc.
Qed.
Lemma quoted_inside v : all_chars value_char v -> forall raw r, lex (v ++ r) (InTag raw (Some """"%char)) = lex r (InTag (raw ++ v) (Some """"%char)).
Proof.
  induction v as [|c v IH]; intros C raw r; cbn [append]; [now rewrite str_app_nil|]. destruct C as [Cc C]. cbn [lex].
  assert (E1 : Ascii.eqb c """" = false) by (apply Ascii.eqb_neq; intros ->; apply Cc; simpl; tauto).
  assert (E2 : Ascii.eqb c "<" = false) by (apply Ascii.eqb_neq; intros ->; apply Cc; simpl; tauto).
  assert (E3 : Ascii.eqb c "&" = false) by (apply Ascii.eqb_neq; intros ->; apply Cc; simpl; tauto).
  rewrite E1, E2, E3. cbn [orb]. rewrite IH by exact C. unfold snoc. now rewrite str_app_assoc.
Qed.
Lemma quiet_quoted v : all_chars value_char v -> quiet ("""" ++ v ++ """").
Proof.
  intros C raw r. rewrite !str_app_assoc. cbn [append lex]. change (Ascii.eqb """" ">") with false. change (Ascii.eqb """" "<") with false. change (is_quote """") with true. cbv iota.
  rewrite quoted_inside by exact C. cbn [append lex]. rewrite Ascii.eqb_refl. unfold snoc. now rewrite !str_app_assoc.
Qed.
Lemma quiet_qname q : all_chars qname_char q -> quiet q.
Proof. intros C. apply quiet_chars. eapply all_chars_impl; [|exact C]. intros c N I. apply (qname_char_not c c N); [|reflexivity]. simpl in *. tauto. Qed.
Ltac quiet_literal := apply quiet_chars; cbn [all_chars]; repeat split; simpl; intuition discriminate.
Lemma quiet_attrs attrs a : attrs_as attrs a -> quiet a.
Proof.
  intros A. induction A as [| |n q v attrs s W Hv A IH].
  - intros raw r. cbn [append]. now rewrite str_app_nil.
  - quiet_literal.
  - replace (" " ++ q ++ "=""" ++ v ++ """" ++ s) with (" " ++ q ++ "=" ++ ("""" ++ v ++ """") ++ s) by now rewrite !str_app_assoc.
    apply quiet_app; [quiet_literal|]. apply quiet_app; [apply quiet_qname, (writes_chars _ _ W)|]. apply quiet_app; [quiet_literal|]. apply quiet_app; [now apply quiet_quoted|exact IH].
Qed.
Lemma lex_tag body : quiet body -> forall k r, lex ("<" ++ body ++ ">" ++ r) (Content k) = then_ [Tag body] (lex r (Content 0)).
Proof. intros Q k r. cbn [append lex]. change (Ascii.eqb "<" "<") with true. cbv iota. rewrite Q. reflexivity. Qed.

(** ** Reading: names and attributes *)
Lemma attributes_name p n r : all_chars (fun c => c <> "="%char) p -> attributes (p ++ r) (InName n) = attributes r (InName (n ++ p)).
Proof.
  revert n. induction p as [|c p IH]; intros n C; cbn [append]; [now rewrite str_app_nil|]. destruct C as [Cc C]. cbn [attributes]. apply Ascii.eqb_neq in Cc. rewrite Cc, IH by exact C.
  unfold snoc. now rewrite str_app_assoc.
Qed.
Lemma attributes_value v n u r : all_chars value_char v -> attributes (v ++ """" ++ r) (InValue n """" u) = option_map (cons (n, u ++ v)) (attributes r Between).
Proof.
  revert u. induction v as [|c v IH]; intros u C.
  - cbn [append attributes]. rewrite Ascii.eqb_refl. now rewrite str_app_nil.
  - destruct C as [Cc C]. cbn [append attributes]. assert (E : Ascii.eqb c """" = false) by (apply Ascii.eqb_neq; intros ->; apply Cc; simpl; tauto). rewrite E.
    change (String """" r) with ("""" ++ r). rewrite IH by exact C. unfold snoc. now rewrite str_app_assoc.
Qed.
Lemma attributes_one q v r : q <> "" -> all_chars qname_char q -> all_chars value_char v -> attributes (" " ++ q ++ "=""" ++ v ++ """" ++ r) Between = option_map (cons (q, v)) (attributes r Between).
Proof.
  intros NE C Cv. destruct q as [|c q]; [contradiction|]. destruct C as [Cc C]. cbn [append attributes]. change (is_space " ") with true. cbv iota.
  assert (S : is_space c = false) by (apply not_space_blank; now apply qname_char_ink). rewrite S.
  rewrite attributes_name by (eapply all_chars_impl; [|exact C]; intros d N; apply (qname_char_not d _ N); simpl; tauto).
  cbn [append attributes]. rewrite Ascii.eqb_refl. change (is_quote """") with true. cbv iota. change (String """" r) with ("""" ++ r). now rewrite attributes_value.
Qed.

Lemma attrs_read attrs a r : attrs_as attrs a -> attributes r Between = Some [] -> attributes (a ++ r) Between = Some attrs.
Proof.
  intros A R. induction A as [| |n q v attrs s W Hv A E]; [exact R|exact R|].
  replace ((" " ++ q ++ "=""" ++ v ++ """" ++ s) ++ r) with (" " ++ q ++ "=""" ++ v ++ """" ++ (s ++ r)) by (rewrite !str_app_assoc; reflexivity).
  destruct (writes_chars _ _ W) as [NE C]. now rewrite attributes_one, E.
Qed.

Lemma attrs_front attrs a : attrs_as attrs a -> a = "" \/ exists r, a = String " " r.
Proof. intros [| |]; [now left| |]; right; eexists; reflexivity. Qed.
Lemma span_name_spec q a : all_chars qname_char q -> a = "" \/ (exists r, a = String " " r) -> span_name (q ++ a) = (q, a).
Proof.
  intros C A. induction q as [|c q IH]; cbn [append].
  - destruct A as [->|(r & ->)]; reflexivity.
  - destruct C as [Cc C]. cbn [span_name]. assert (S : is_space c = false) by (apply not_space_blank; now apply qname_char_ink). now rewrite S, IH.
Qed.
Lemma without_slash_last s c : without_slash (s ++ String c "") = if Ascii.eqb c "/" then Some s else None.
Proof.
  induction s as [|d s IH]; [reflexivity|]. cbn [append]. change (without_slash (String d (s ++ String c ""))) with (match s ++ String c "" with "" => if Ascii.eqb d "/" then Some "" else None | _ => option_map (String d) (without_slash (s ++ String c "")) end).
  rewrite IH. destruct (s ++ String c "") eqn:E; [destruct s; discriminate|]. now destruct (Ascii.eqb c "/").
Qed.
Lemma attrs_end attrs a : attrs_as attrs a -> a = "" \/ exists p c, a = p ++ String c "" /\ c <> "/"%char.
Proof.
  assert (K : forall u s, s = "" \/ (exists p c, s = p ++ String c "" /\ c <> "/"%char) -> exists p c, u ++ """" ++ s = p ++ String c "" /\ c <> "/"%char).
  { intros u s [->|(p & c & -> & N)]; [exists u, """"%char; split; [reflexivity|discriminate]|exists (u ++ """" ++ p), c; split; [now rewrite !str_app_assoc|exact N]]. }
  intros A. induction A as [| |n q v attrs s W Hv A IH]; [now left|right; exists "", " "%char; split; [reflexivity|discriminate]|]; right.
  destruct (K (" " ++ q ++ "=""" ++ v) s IH) as (u & c & E & N). exists u, c. split; [now rewrite <- E, !str_app_assoc|exact N].
Qed.
Lemma markup_start_of raw : (exists c r, raw = String c r /\ qname_char c) -> markup_of raw = start_of raw.
Proof.
  intros (c & r & -> & C). unfold markup_of.
  assert (E : forall d, In d ["047"; "063"; "033"]%char -> Ascii.eqb c d = false) by (intros d I; apply Ascii.eqb_neq, (qname_char_not c d C); simpl in *; tauto).
  rewrite !E by (simpl; tauto). reflexivity.
Qed.
Lemma start_markup n q attrs a : writes n q -> attrs_as attrs a -> markup_of (q ++ a) = Some (Start q attrs).
Proof.
  intros W A. destruct (writes_chars _ _ W) as [NE C]. pose proof (attrs_read _ _ "" A eq_refl) as E. rewrite str_app_nil in E.
  rewrite markup_start_of by (destruct q as [|c q]; [contradiction|]; exists c, (q ++ a); split; [reflexivity|apply C]). unfold start_of.
  assert (WS : without_slash (q ++ a) = None).
  { destruct (attrs_end _ _ A) as [->|(p & d & -> & Nd)].
    - rewrite str_app_nil. destruct (last_char q NE) as (p & c & ->). rewrite without_slash_last. rewrite all_chars_app in C. destruct C as [_ [C _]].
      assert (E' : Ascii.eqb c "/" = false) by (apply Ascii.eqb_neq, (qname_char_not c _ C); simpl; tauto). now rewrite E'.
    - rewrite <- str_app_assoc, without_slash_last. apply Ascii.eqb_neq in Nd. now rewrite Nd. }
  rewrite WS, span_name_spec by (eauto using attrs_front). rewrite E. destruct q; [contradiction|reflexivity].
Qed.
Lemma empty_markup n q attrs a w : writes n q -> attrs_as attrs a -> w = "" \/ w = " " -> markup_of (q ++ a ++ w ++ "/") = Some (Empty q attrs).
Proof.
  intros W A Hw. destruct (writes_chars _ _ W) as [NE C]. assert (E : attributes (a ++ w) Between = Some attrs) by (apply attrs_read; [exact A|destruct Hw as [-> | ->]; reflexivity]).
  rewrite markup_start_of by (destruct q as [|c q]; [contradiction|]; exists c, (q ++ a ++ w ++ "/"); split; [reflexivity|apply C]). unfold start_of.
  replace (q ++ a ++ w ++ "/") with ((q ++ a ++ w) ++ String "/" "") by now rewrite !str_app_assoc. rewrite without_slash_last, Ascii.eqb_refl.
  rewrite span_name_spec; [|exact C|].
  - rewrite E. destruct q; [contradiction|reflexivity].
  - destruct (attrs_front _ _ A) as [->|(r & ->)]; [destruct Hw as [-> | ->]; [now left|right; eexists; reflexivity]|right; eexists; reflexivity].
Qed.
Lemma end_markup n q : writes n q -> markup_of ("/" ++ q) = Some (End_ q).
Proof.
  intros W. destruct (writes_chars _ _ W) as [NE C]. cbn [append markup_of]. rewrite Ascii.eqb_refl. do 2 f_equal. destruct (last_char q NE) as (p & c & ->). apply rstrip_ends. exists p, c. split; [reflexivity|].
  rewrite all_chars_app in C. apply qname_char_ink, C.
Qed.

(** ** Reading: elements *)
Lemma build_chars s : forall ts f stack root, build (chars s ++ ts) (f :: stack) root = build ts (mk_frame (f_qname f) (f_attrs f) (f_text f ++ s) (f_children f) :: stack) root.
Proof.
  induction s as [|c s IH]; intros ts f stack root.
  - cbn [chars list_ascii_of_string map app]. rewrite str_app_nil. now destruct f.
  - change (chars (String c s)) with (Char c :: chars s). cbn [app build]. rewrite IH. cbn [add_char f_qname f_attrs f_text f_children]. unfold snoc. now rewrite str_app_assoc.
Qed.

(** What an element does to the state of the reader. *)
Definition place_in (y : xml) (stack : list frame) (root : option xml) : list frame * option xml :=
  match stack with [] => ([], Some y) | f :: stack => (add_child y f :: stack, root) end.
Definition ready (stack : list frame) (root : option xml) : Prop := stack = [] -> root = None.

Lemma alikes_refl_nil cs : alikes [] cs -> cs = []. Proof. now inversion 1. Qed.

Scheme spaced_ind2 := Minimality for spaced Sort Prop with spaceds_ind2 := Minimality for spaced_all Sort Prop.
Combined Scheme spaced_mutual from spaced_ind2, spaceds_ind2.
Lemma spaced_alike : (forall x y, spaced x y -> alike x y) /\ (forall xs ys, spaced_all xs ys -> alikes xs ys).
Proof.
  apply spaced_mutual; [|constructor|constructor; auto]. intros n attrs t t' cs cs' S _ IH. constructor; [|exact IH]. destruct S as [->|[-> W]]; [apply same_text_refl|].
  split; [symmetry; now apply flatten_blank, white_blank|]. split; [congruence|auto].
Qed.
Lemma read_lays :
  (forall x s, lays x s -> lexable x -> exists y toks, spaced x y /\ (forall k r, lex (s ++ r) (Content k) = then_ toks (lex r (Content 0))) /\
    forall ts stack root, ready stack root -> build (toks ++ ts) stack root = build ts (fst (place_in y stack root)) (snd (place_in y stack root))) /\
  (forall cs b, lays_all cs b -> Forall lexable cs -> exists ys w toks, spaced_all cs ys /\ (all_blank w /\ all_chars white w) /\ (forall r, lex (b ++ r) (Content 0) = then_ toks (lex r (Content 0))) /\
    forall ts f stack root, build (toks ++ ts) (f :: stack) root = build ts (mk_frame (f_qname f) (f_attrs f) (f_text f ++ w) (f_children f ++ ys) :: stack) root).
Proof.
  assert (BL : forall w, all_blank w -> all_chars (fun c => In c ["009"; "010"; "032"]%char) w -> forall r, lex (w ++ r) (Content 0) = then_ (chars w) (lex r (Content 0))).
  { intros w B C r. destruct (lex_blank w) with (k := 0%nat) as (k' & K & H); [|exact B|rewrite H, (K eq_refl); reflexivity].
    eapply all_chars_impl; [|exact C]. intros c I. simpl in I. unfold text_char. repeat destruct I as [<-|I]; try contradiction; (split; [discriminate|split; [discriminate|]]); [now left|right; now left|right; right; vm_compute; discriminate]. }
  assert (CLOSE : forall n q f g ts stack root, writes n q -> f_qname f = q -> g = finish f -> build (Tag ("/" ++ q) :: ts) (f :: stack) root = build ts (fst (place_in g stack root)) (snd (place_in g stack root))).
  { intros n q f g ts stack root W Q ->. cbn [build]. rewrite (end_markup _ _ W). rewrite Q, String.eqb_refl. destruct stack; reflexivity. }
  apply lays_mutual.
  - intros n q attrs a t W A L. inversion L as [? ? ? ? LT _]; subst. destruct (lex_lextext t LT) as (k' & H). pose proof (start_markup _ _ _ _ W A) as M.
    exists (Elem q attrs t []), ([Tag (q ++ a)] ++ chars t ++ [Tag ("/" ++ q)])%list. split; [constructor; [now left|constructor]|]. split.
    + intros k r. replace (("<" ++ q ++ a ++ ">" ++ t ++ "</" ++ q ++ ">") ++ r) with ("<" ++ (q ++ a) ++ ">" ++ t ++ ("<" ++ ("/" ++ q) ++ ">" ++ r)) by now rewrite !str_app_assoc.
      rewrite lex_tag by (apply quiet_app; [apply quiet_qname, (writes_chars _ _ W)|eauto using quiet_attrs]). rewrite H.
      rewrite lex_tag by (apply quiet_app; [quiet_literal|apply quiet_qname, (writes_chars _ _ W)]). now rewrite !then_app.
    + intros ts stack root R. rewrite <- !app_assoc. cbn [app build]. rewrite M.
      assert (G : forall z, match stack, root with [], Some _ => None | _, _ => z end = (z : option xml)) by (intros z; destruct stack; [rewrite (R eq_refl)|]; reflexivity).
      rewrite G, build_chars. cbn [app new_frame f_qname f_attrs f_text f_children append]. eapply CLOSE; [exact W|reflexivity|]. reflexivity.
  - intros n q attrs a w W A Hw L. pose proof (empty_markup _ _ _ _ _ W A Hw) as M. exists (Elem q attrs "" []), [Tag (q ++ a ++ w ++ "/")]. split; [constructor; [now left|constructor]|]. split.
    + intros k r. replace (("<" ++ q ++ a ++ w ++ "/>") ++ r) with ("<" ++ (q ++ a ++ w ++ "/") ++ ">" ++ r) by now rewrite !str_app_assoc.
      apply lex_tag. apply quiet_app; [apply quiet_qname, (writes_chars _ _ W)|]. apply quiet_app; [eauto using quiet_attrs|]. destruct Hw as [-> | ->]; quiet_literal.
    + intros ts stack root R. cbn [app build]. rewrite M. destruct stack; [rewrite (R eq_refl)|]; reflexivity.
  - intros n q attrs a cs b W A S IH L. inversion L as [? ? ? ? _ LC]; subst. destruct (IH LC) as (ys & w & toks & AL & [B Wh] & H & BU). pose proof (start_markup _ _ _ _ W A) as M.
    exists (Elem q attrs w ys), ([Tag (q ++ a)] ++ toks ++ [Tag ("/" ++ q)])%list. split; [constructor; [right; split; [reflexivity|exact Wh]|exact AL]|]. split.
    + intros k r. replace (("<" ++ q ++ a ++ ">" ++ b ++ "</" ++ q ++ ">") ++ r) with ("<" ++ (q ++ a) ++ ">" ++ b ++ ("<" ++ ("/" ++ q) ++ ">" ++ r)) by now rewrite !str_app_assoc.
      rewrite lex_tag by (apply quiet_app; [apply quiet_qname, (writes_chars _ _ W)|eauto using quiet_attrs]). rewrite H.
      rewrite lex_tag by (apply quiet_app; [quiet_literal|apply quiet_qname, (writes_chars _ _ W)]). now rewrite !then_app.
    + intros ts stack root R. rewrite <- !app_assoc. cbn [app build]. rewrite M.
      assert (G : forall z, match stack, root with [], Some _ => None | _, _ => z end = (z : option xml)) by (intros z; destruct stack; [rewrite (R eq_refl)|]; reflexivity).
      rewrite G, BU. cbn [app new_frame f_qname f_attrs f_text f_children append]. eapply CLOSE; [exact W|reflexivity|]. reflexivity.
  - intros w B C _. exists [], w, (chars w). split; [constructor|]. split; [now split|]. split; [now apply BL|]. intros ts f stack root. rewrite build_chars. now rewrite app_nil_r.
  - intros w x s cs b B C S IHx SA IHcs L. inversion L as [|? ? Lx LC]; subst. destruct (IHx Lx) as (y & t1 & AL & H1 & B1). destruct (IHcs LC) as (ys & w' & t2 & ALs & [B' C'] & H2 & B2).
    exists (y :: ys), (w ++ w'), (chars w ++ t1 ++ t2)%list. split; [now constructor|]. split; [split; [apply all_blank_app; auto|apply all_chars_app; auto]|]. split.
    + intros r. rewrite !str_app_assoc, (BL w B C), H1, H2. now rewrite !then_app, app_assoc.
    + intros ts f stack root. rewrite <- !app_assoc, build_chars, B1 by discriminate. cbn [place_in fst snd]. rewrite B2. unfold add_child. cbn [f_qname f_attrs f_text f_children].
      rewrite str_app_assoc, <- app_assoc. reflexivity.
Qed.

(** ** Values *)
Lemma alike_name x y : alike x y -> xml_name x = xml_name y. Proof. now intros []. Qed.
Lemma alike_val : (forall x y, alike x y -> to_val x = to_val y) /\
  (forall xs ys, alikes xs ys -> forall d, fold_left (fun d c => push d (xml_name c) (to_val c)) xs d = fold_left (fun d c => push d (xml_name c) (to_val c)) ys d).
Proof.
  apply alike_mutual.
  - intros n attrs t t' cs cs' F A IH. assert (T : text_val t = text_val t') by (unfold text_val; now rewrite (proj1 F)).
    destruct attrs as [|a attrs], A as [|x y xs ys A As]; [exact T| | |]; cbn [to_val]; rewrite ?IH, T; reflexivity.
  - reflexivity.
  - intros x y xs ys A IHx As IHxs d. cbn [fold_left]. rewrite (alike_name _ _ A), IHx. apply IHxs.
Qed.
Lemma same_text_trans a b c : same_text a b -> same_text b c -> same_text a c.
Proof. intros (F & G & H) (F' & G' & H'). split; [congruence|]. split; [|auto]. intros N O. specialize (G N O). subst b. now apply G'. Qed.
Lemma alike_trans : (forall x y, alike x y -> forall z, alike y z -> alike x z) /\ (forall xs ys, alikes xs ys -> forall zs, alikes ys zs -> alikes xs zs).
Proof.
  apply alike_mutual.
  - intros n attrs t t' cs cs' F A IH z Z. inversion Z; subst. constructor; [eapply same_text_trans; eassumption|auto].
  - auto.
  - intros x y xs ys A IHx As IHxs zs Z. inversion Z; subst. constructor; auto.
Qed.

(** ** Namespaces *)
Scheme means_ind2 := Minimality for means Sort Prop with means_all_ind2 := Minimality for means_all Sort Prop.
Scheme plainly_ind2 := Minimality for plainly Sort Prop with plainly_all_ind2 := Minimality for plainly_all Sort Prop.
Combined Scheme plainly_mutual from plainly_ind2, plainly_all_ind2.
Lemma means_mutual (P : scope -> xml -> xml -> Prop) (Q : scope -> list xml -> list xml -> Prop) :
  (forall sc q raw t cs ds n attrs es, NoDup (map fst raw) -> declares raw ds -> element_means (ds ++ sc) q n -> attributes_mean (ds ++ sc) raw attrs -> NoDup (map fst attrs) ->
    means_all (ds ++ sc) cs es -> Q (ds ++ sc)%list cs es -> P sc (Elem q raw t cs) (Elem n attrs t es)) ->
  (forall sc, Q sc [] []) -> (forall sc x e xs es, means sc x e -> P sc x e -> means_all sc xs es -> Q sc xs es -> Q sc (x :: xs) (e :: es)) ->
  (forall sc r e, means sc r e -> P sc r e) /\ (forall sc rs es, means_all sc rs es -> Q sc rs es).
Proof.
  intros H N C. assert (F : forall r sc e, means sc r e -> P sc r e).
  { fix IH 1. intros [q raw t cs] sc e M. inversion M as [? ? ? ? ds n attrs es D1 D2 EM AM D3 MA]; subst. eapply H; [exact D1|exact D2|exact EM|exact AM|exact D3|exact MA|].
    clear M EM AM D3. revert es MA. induction cs as [|c cs IHc]; intros es MA; inversion MA; subst; [apply N|]. apply C; [assumption|now apply IH|assumption|now apply IHc]. }
  split; [auto|]. intros sc rs es MA. induction MA as [|x e xs es M MA IH]; [apply N|]. apply C; auto.
Qed.

Lemma declared_lookup p sc u : declared p sc u -> lookup p sc = Some u.
Proof.
  intros (a & b & -> & N). unfold lookup. induction a as [|[k v] a IH]; cbn [app get]; [now rewrite String.eqb_refl|]. cbn [map fst In] in N.
  destruct (p =? k) eqn:E; [apply String.eqb_eq in E as ->; tauto|]. apply IH. tauto.
Qed.
Lemma undeclared_lookup p sc : ~ In p (map fst sc) -> lookup p sc = None.
Proof.
  intros N. unfold lookup. induction sc as [|[k v] a IH]; cbn [get]; [reflexivity|]. cbn [map fst In] in N.
  destruct (p =? k) eqn:E; [apply String.eqb_eq in E as ->; tauto|]. apply IH. tauto.
Qed.
Lemma split_colon_prefix p : all_chars name_char p -> forall n, split_colon (p ++ ":" ++ n) = Some (p, n).
Proof. induction p as [|c p IH]; intros C n; [reflexivity|]. destruct C as [Cc C]. cbn [append split_colon]. assert (E : Ascii.eqb c ":" = false) by (apply Ascii.eqb_neq; apply (name_char_not c _ Cc); simpl; tauto). rewrite E. cbn [append] in IH. now rewrite IH. Qed.
Lemma split_colon_none p : all_chars name_char p -> split_colon p = None.
Proof. induction p as [|c p IH]; intros C; [reflexivity|]. destruct C as [Cc C]. cbn [split_colon]. assert (E : Ascii.eqb c ":" = false) by (apply Ascii.eqb_neq; apply (name_char_not c _ Cc); simpl; tauto). rewrite E. now rewrite IH. Qed.
Lemma split_colon_app s a b : split_colon s = Some (a, b) -> s = a ++ ":" ++ b.
Proof.
  revert a b. induction s as [|c s IH]; intros a b H; cbn [split_colon] in H; [discriminate|]. destruct (Ascii.eqb_spec c ":") as [->|N]; [injection H as <- <-; reflexivity|].
  destruct (split_colon s) as [[a' b']|]; [|discriminate]. injection H as <- <-. cbn [append]. now rewrite (IH a' b' eq_refl).
Qed.
Lemma xmlns_chars : all_chars name_char "xmlns".
Proof. cbn [all_chars]. unfold name_char. repeat split; vm_compute; intuition discriminate. Qed.
Lemma declares_declarations raw ds : declares raw ds -> declarations raw = Some ds.
Proof.
  intros D. induction D as [|v raw ds D IH|p v raw ds N1 N2 N3 D IH|q v raw ds N1 N2 D IH]; [reflexivity| | |]; cbn [declarations]; rewrite IH.
  - reflexivity.
  - change ("xmlns:" ++ p =? "xmlns") with false. cbv iota. change ("xmlns:" ++ p) with ("xmlns" ++ ":" ++ p). rewrite split_colon_prefix by exact xmlns_chars. cbv iota.
    apply String.eqb_neq in N1, N2, N3. rewrite N1, N2, N3. reflexivity.
  - apply String.eqb_neq in N1. rewrite N1. destruct (split_colon q) as [[x p]|] eqn:E; [|reflexivity]. apply split_colon_app in E. destruct (String.eqb_spec x "xmlns") as [->|]; [|reflexivity]. now elim (N2 p).
Qed.
Lemma element_means_name sc q n : element_means sc q n -> element_name sc q = Some n.
Proof.
  unfold element_name. intros [p m u [_ P] _ D|m u [_ N] D U|m [_ N] D].
  - rewrite split_colon_prefix by exact P. unfold prefixed_name. now rewrite (declared_lookup _ _ _ D).
  - rewrite split_colon_none by exact N. rewrite (declared_lookup _ _ _ D). apply String.eqb_neq in U. now rewrite U.
  - rewrite split_colon_none by exact N. destruct D as [D|D]; [now rewrite (declared_lookup _ _ _ D)|now rewrite (undeclared_lookup _ _ D)].
Qed.
Lemma attributes_mean_names sc raw attrs : attributes_mean sc raw attrs -> attribute_names sc raw = Some attrs.
Proof.
  intros A. induction A as [|q v raw l D A IH|n v raw l [_ N] X A IH|p n u v raw l [_ P] X [_ N] D A IH]; [reflexivity| | |]; cbn [attribute_names]; rewrite IH.
  - destruct D as [->|(p & ->)]; [reflexivity|]. change ("xmlns:" ++ p =? "xmlns") with false. cbv iota. change ("xmlns:" ++ p) with ("xmlns" ++ ":" ++ p). now rewrite split_colon_prefix by exact xmlns_chars.
  - apply String.eqb_neq in X. rewrite X. now rewrite split_colon_none by exact N.
  - assert (Q : p ++ ":" ++ n =? "xmlns" = false).
    { apply String.eqb_neq. intros E. pose proof (split_colon_prefix p P n) as K. rewrite E in K. discriminate K. }
    rewrite Q. rewrite split_colon_prefix by exact P. apply String.eqb_neq in X. rewrite X. unfold prefixed_name. now rewrite (declared_lookup _ _ _ D).
Qed.
Lemma distinct_nodup l : NoDup l -> distinct l = true.
Proof.
  intros N. induction N as [|x l I N IH]; [reflexivity|]. cbn [distinct]. rewrite IH, andb_true_r. apply negb_true_iff. destruct (existsb (String.eqb x) l) eqn:E; [|reflexivity].
  apply existsb_exists in E as (y & J & E). apply String.eqb_eq in E. subst y. contradiction.
Qed.
Lemma means_expand : (forall sc r e, means sc r e -> expand sc r = Some e) /\ (forall sc rs es, means_all sc rs es -> all_some (expand sc) rs = Some es).
Proof.
  apply means_mutual.
  - intros sc q raw t cs ds n attrs es N1 D E A N2 _ IH. cbn [expand]. rewrite (declares_declarations _ _ D). cbv zeta. rewrite (element_means_name _ _ _ E), (attributes_mean_names _ _ _ A), IH.
    now rewrite !distinct_nodup.
  - reflexivity.
  - intros sc x e xs es _ IHx _ IHs. cbn [all_some]. rewrite IHx. fold (all_some (expand sc) xs). now rewrite IHs.
Qed.

(** Further declarations outside. *)
Lemma declared_more p sc u more : declared p sc u -> declared p (sc ++ more) u.
Proof. intros (a & b & -> & N). exists a, (b ++ more)%list. now rewrite <- app_assoc. Qed.
Lemma means_more more : ~ In "" (map fst more) -> (forall sc r e, means sc r e -> means (sc ++ more) r e) /\ (forall sc rs es, means_all sc rs es -> means_all (sc ++ more) rs es).
Proof.
  intros M. apply means_mutual.
  - intros sc q raw t cs ds n attrs es N1 D E A N2 _ IH. apply (me (sc ++ more) q raw t cs ds n attrs es); [exact N1|exact D| | |exact N2|now rewrite app_assoc]; rewrite app_assoc; clear - E A M.
    + destruct E as [p m u P N D|m u N D U|m N [D|D]]; [apply em_prefix|apply em_default|apply em_none|apply em_none]; auto using declared_more. right. rewrite map_app, in_app_iff. tauto.
    + induction A as [| | |]; [constructor|apply am_declaration|apply am_local|apply am_prefix]; auto using declared_more.
  - constructor.
  - intros sc x e xs es _ IHx _ IHs. now constructor.
Qed.

Lemma namespaces_familiar u : In u familiar -> existsb (String.eqb u) namespaces = true.
Proof. intros I. cbn in I. repeat (destruct I as [<-|I]; [reflexivity|]). destruct I. Qed.
Lemma split_brace_name n : all_chars name_char n -> split_brace n = None.
Proof.
  induction n as [|c n IH]; intros C; [reflexivity|]. destruct C as [H C]. cbn [split_brace]. rewrite (IH C). destruct (Ascii.eqb_spec c "}") as [->|D]; [|reflexivity]. vm_compute in H. intuition (discriminate || congruence).
Qed.
Lemma split_brace_app u n : all_chars name_char n -> split_brace (u ++ "}" ++ n) = Some (u, n).
Proof.
  intros C. induction u as [|c u IH]; cbn [append split_brace]; [now rewrite (split_brace_name n C)|]. cbn [append] in IH. now rewrite IH.
Qed.
Lemma named_plain m n : named m n -> plain_name m = n.
Proof.
  intros [k [N C]|u k I [_ C]].
  - unfold plain_name. destruct k as [|c k]; [now elim N|]. destruct C as [C _]. cbn [strip_prefix]. destruct (Ascii.eqb_spec "{" c) as [<-|D]; [|reflexivity]. vm_compute in C. intuition (discriminate || congruence).
  - unfold expanded, plain_name. cbn [append strip_prefix]. rewrite Ascii.eqb_refl. change (String "}" k) with ("}" ++ k). rewrite split_brace_app by exact C. now rewrite namespaces_familiar.
Qed.
Lemma plainly_plain : (forall e x, plainly e x -> plain_xml e = x) /\ (forall es xs, plainly_all es xs -> map plain_xml es = xs).
Proof.
  apply plainly_mutual.
  - intros m n attrs l t es cs N A _ IH. cbn [plain_xml]. rewrite (named_plain _ _ N), IH. f_equal. induction A as [|[a v] [b w] attrs l [N1 E] A IHA]; [reflexivity|]. cbn [map fst snd] in *. now rewrite (named_plain _ _ N1), E, IHA.
  - reflexivity.
  - intros e x es xs _ IHe _ IHs. cbn [map]. now rewrite IHe, IHs.
Qed.

(** Texts stay. *)
Lemma alike_means : (forall r y, alike r y -> forall sc e, means sc r e -> exists e', means sc y e' /\ alike e e') /\
  (forall rs ys, alikes rs ys -> forall sc es, means_all sc rs es -> exists es', means_all sc ys es' /\ alikes es es').
Proof.
  apply alike_mutual.
  - intros q raw t t' cs cs' F A IH sc e M. inversion M as [? ? ? ? ds n attrs es D1 D2 EM AM D3 MA]; subst. destruct (IH _ _ MA) as (es' & MA' & AL). exists (Elem n attrs t' es').
    split; [now apply (me sc q raw t' cs' ds n attrs es')|now constructor].
  - intros sc es M. inversion M; subst. exists []. split; constructor.
  - intros x y xs ys A IHx As IHs sc es M. inversion M as [|? e ? es0 M1 M2]; subst. destruct (IHx _ _ M1) as (e' & Me & AL). destruct (IHs _ _ M2) as (es' & Ms & ALs). exists (e' :: es'). split; now constructor.
Qed.
Lemma spaced_means : (forall r y, spaced r y -> forall sc e, means sc r e -> exists e', means sc y e' /\ spaced e e') /\
  (forall rs ys, spaced_all rs ys -> forall sc es, means_all sc rs es -> exists es', means_all sc ys es' /\ spaced_all es es').
Proof.
  apply spaced_mutual.
  - intros q raw t t' cs cs' F A IH sc e M. inversion M as [? ? ? ? ds n attrs es D1 D2 EM AM D3 MA]; subst. destruct (IH _ _ MA) as (es' & MA' & AL). exists (Elem n attrs t' es').
    split; [now apply (me sc q raw t' cs' ds n attrs es')|now constructor].
  - intros sc es M. inversion M; subst. exists []. split; constructor.
  - intros x y xs ys A IHx As IHs sc es M. inversion M as [|? e ? es0 M1 M2]; subst. destruct (IHx _ _ M1) as (e' & Me & AL). destruct (IHs _ _ M2) as (es' & Ms & ALs). exists (e' :: es'). split; now constructor.
Qed.
Lemma alike_plainly : (forall e y, alike e y -> forall x, plainly e x -> exists x', plainly y x' /\ alike x x') /\
  (forall es ys, alikes es ys -> forall xs, plainly_all es xs -> exists xs', plainly_all ys xs' /\ alikes xs xs').
Proof.
  apply alike_mutual.
  - intros q raw t t' cs cs' F A IH x M. inversion M as [? n ? l ? ? xs N AN PA]; subst. destruct (IH _ PA) as (xs' & PA' & AL). exists (Elem n l t' xs'). split; now constructor.
  - intros xs M. inversion M; subst. exists []. split; constructor.
  - intros x y xs ys A IHx As IHs zs M. inversion M as [|? z ? zs0 M1 M2]; subst. destruct (IHx _ M1) as (e' & Me & AL). destruct (IHs _ M2) as (es' & Ms & ALs). exists (e' :: es'). split; now constructor.
Qed.
(** A property of all texts. *)
Inductive texts_are (P : string -> Prop) : xml -> Prop := ta n attrs t cs : P t -> Forall (texts_are P) cs -> texts_are P (Elem n attrs t cs).
Lemma means_texts P : (forall sc r e, means sc r e -> texts_are P e -> texts_are P r) /\ (forall sc rs es, means_all sc rs es -> Forall (texts_are P) es -> Forall (texts_are P) rs).
Proof.
  apply means_mutual.
  - intros sc q raw t cs ds n attrs es _ _ _ _ _ _ IH T. inversion T; subst. constructor; auto.
  - auto.
  - intros sc x e xs es _ IHx _ IHs F. inversion F; subst. constructor; auto.
Qed.
Lemma plainly_texts P : (forall e x, plainly e x -> texts_are P x -> texts_are P e) /\ (forall es xs, plainly_all es xs -> Forall (texts_are P) xs -> Forall (texts_are P) es).
Proof.
  apply plainly_mutual.
  - intros m n attrs l t es cs _ _ _ IH T. inversion T; subst. constructor; auto.
  - auto.
  - intros x e xs es _ IHx _ IHs F. inversion F; subst. constructor; auto.
Qed.
Lemma unmarked_texts x : unmarked_xml x <-> texts_are unmarked x.
Proof.
  split; revert x; fix IH 2.
  - intros x [n attrs t cs U H]. constructor; [exact U|]. apply Forall_forall. intros y I. apply IH. now apply H.
  - intros x [n attrs t cs U H]. constructor; [exact U|]. induction H as [|y ys H F IHF]; intros z []; [subst; now apply IH|now apply IHF].
Qed.
Lemma clean_texts x : clean_xml x -> texts_are (fun t => all_chars text_char t /\ ~ part_of "]]>" t) x.
Proof. revert x. fix IH 2. intros x [n attrs t cs U H]. constructor; [exact U|]. apply Forall_forall. intros y I. apply IH. now apply H. Qed.
Lemma clean_lexable x : texts_are (fun t => all_chars text_char t /\ ~ part_of "]]>" t) x -> lexable x.
Proof.
  revert x. fix IH 2. intros x [n attrs t cs [C NP] H]. constructor.
  - split; [exact C|]. exists "", t, "". rewrite str_app_nil. repeat split. exact NP.
  - induction H as [|y ys H F IHF]; constructor; [now apply IH|exact IHF].
Qed.
Lemma alike_refl x : alike x x.
Proof. revert x. fix IH 1. intros [n attrs t cs]. constructor; [apply same_text_refl|]. induction cs as [|c cs IHc]; constructor; [apply IH|exact IHc]. Qed.

(** The message as a whole. *)
Lemma envelope_scope : ~ In "" (map fst [("oadr", "http://openadr.org/oadr-2.0b/2012/07"); ("xml", "http://www.w3.org/XML/1998/namespace")]).
Proof. simpl. intuition discriminate. Qed.
Lemma means_app sc rs es x e : means_all sc rs es -> means sc x e -> means_all sc (rs ++ [x]) (es ++ [e]).
Proof. intros M N. induction M as [|y f ys fs A M IH]; cbn [app]; constructor; auto. constructor. Qed.
Lemma plainly_app rs es x e : plainly_all rs es -> plainly x e -> plainly_all (rs ++ [x]) (es ++ [e]).
Proof. intros M N. induction M as [|y f ys fs A M IH]; cbn [app]; constructor; auto. constructor. Qed.
Lemma alikes_app rs es x e : alikes rs es -> alike x e -> alikes (rs ++ [x]) (es ++ [e]).
Proof. intros M N. induction M as [|y f ys fs A M IH]; cbn [app]; constructor; auto. constructor. Qed.
Lemma alikes_refl l : alikes l l.
Proof. induction l; constructor; auto using alike_refl. Qed.
(** What lxml makes of it: [e] is the signed object, [fs] the signature. *)
Definition signed_as (signature : string) (es : list xml) : Prop :=
  (signature = "" /\ es = []) \/ exists rg eg, es = [eg] /\ lays rg signature /\ means [] rg eg /\ texts_are (fun t => all_chars text_char t /\ ~ part_of "]]>" t) rg.
Lemma read_message_spaced signature r e es s : lays r s -> means [] r e -> texts_are unmarked r -> signed_as signature es ->
  exists y e', read_expanded (create_text signature s) = Some y /\ spaced (Elem (expanded "http://openadr.org/oadr-2.0b/2012/07" "oadrPayload") [] "" (es ++ [e'])) y /\ alike e e'.
Proof.
  intros S M Ur0 SG. assert (Ur : unmarked_xml r) by now apply unmarked_texts.
  destruct (proj1 flat_lays _ _ S Ur) as (r' & S' & AL & L').
  assert (LF1 : all_blank lf) by (split; [apply newline_blank|exact I]). assert (LF2 : all_chars (fun c => In c ["009"; "010"; "032"]%char) lf) by (split; [right; now left|exact I]).
  assert (SA : exists b rs, lays_all (rs ++ [r']) b /\ b = lf ++ signature ++ flatten_xml s ++ lf /\ Forall lexable (rs ++ [r']) /\ means_all [] rs es).
  { assert (LAST : forall w, all_blank w -> all_chars (fun c => In c ["009"; "010"; "032"]%char) w -> lays_all [r'] (w ++ flatten_xml s ++ lf)) by (intros w B C; apply sa_cons; auto; now apply sa_nil).
    destruct SG as [[-> ->]|(rg & eg & -> & Sg & Mg & CG)].
    - exists (lf ++ flatten_xml s ++ lf), []. split; [now apply LAST|]. split; [reflexivity|]. split; [now constructor|]. constructor.
    - exists (lf ++ signature ++ ("" ++ flatten_xml s ++ lf)), [rg]. split; [apply sa_cons; auto; now apply LAST|]. split; [reflexivity|]. split; [|constructor; (assumption || constructor)].
      constructor; [|now constructor]. now apply clean_lexable. }
  destruct SA as (b & rs & SA & Eb & LA & MA).
  assert (Nm : name "oadr" /\ name "oadrPayload").
  { split; (split; [discriminate|]); cbn [all_chars]; unfold name_char; repeat split; vm_compute; intuition discriminate. }
  destruct Nm as [N1 N2]. set (decl := [("xmlns:oadr", "http://openadr.org/oadr-2.0b/2012/07")]).
  assert (SP : lays (Elem "oadr:oadrPayload" decl "" (rs ++ [r'])) ("<" ++ "oadr:oadrPayload" ++ " xmlns:oadr=""http://openadr.org/oadr-2.0b/2012/07""" ++ ">" ++ b ++ "</" ++ "oadr:oadrPayload" ++ ">")).
  { apply (sh_node "oadrPayload"); [|apply (aa_attr "oadr" "xmlns:oadr" "http://openadr.org/oadr-2.0b/2012/07" [] "")|exact SA].
    - now apply (wr_prefix "oadrPayload" "oadr").
    - apply (wr_prefix "oadr" "xmlns"); [|exact N1]. split; [discriminate|exact xmlns_chars].
    - cbn [all_chars]. unfold value_char. repeat split; simpl; intuition discriminate.
    - constructor. }
  destruct (proj1 read_lays _ _ SP) as (y & toks & ALy & LX & BU); [constructor; [apply lextext_nil|exact LA]|].
  destruct (proj1 alike_means _ _ AL _ _ M) as (e' & M' & ALe).
  assert (MP : means outer_scope (Elem "oadr:oadrPayload" decl "" (rs ++ [r'])) (Elem (expanded "http://openadr.org/oadr-2.0b/2012/07" "oadrPayload") [] "" (es ++ [e']))).
  { apply (me outer_scope "oadr:oadrPayload" decl "" (rs ++ [r']) [("oadr", "http://openadr.org/oadr-2.0b/2012/07")] _ [] (es ++ [e'])).
    - constructor; [intros []|constructor].
    - apply (de_prefix "oadr"); [discriminate|discriminate|discriminate|constructor].
    - apply (em_prefix _ "oadr" "oadrPayload"); [exact N1|exact N2|]. exists [], outer_scope. split; [reflexivity|intros []].
    - apply am_declaration; [right; now exists "oadr"|constructor].
    - constructor.
    - destruct (means_more _ envelope_scope) as [W1 W2]. apply means_app; [now apply (W2 [])|now apply (W1 [])]. }
  destruct (proj1 spaced_means _ _ ALy _ _ MP) as (z & Mz & ALz). exists z, e'. split; [|now split].
  - unfold read_expanded, create_text, envelope, read_raw.
    assert (E : lex ("<?xml version=""1.0"" encoding=""utf-8""?>" ++ lf ++ "<oadr:oadrPayload xmlns:oadr=""http://openadr.org/oadr-2.0b/2012/07"">" ++ lf ++ signature ++ flatten_xml s ++ lf ++ "</oadr:oadrPayload>") (Content 0)
      = then_ [Tag "?xml version=""1.0"" encoding=""utf-8""?"; Char newline] (then_ toks (Some []))).
    { change (lex ("<?xml version=""1.0"" encoding=""utf-8""?>" ++ lf ++ "<oadr:oadrPayload xmlns:oadr=""http://openadr.org/oadr-2.0b/2012/07"">" ++ lf ++ signature ++ flatten_xml s ++ lf ++ "</oadr:oadrPayload>") (Content 0))
        with (then_ [Tag "?xml version=""1.0"" encoding=""utf-8""?"] (then_ [Char newline] (lex ("<oadr:oadrPayload xmlns:oadr=""http://openadr.org/oadr-2.0b/2012/07"">" ++ lf ++ signature ++ flatten_xml s ++ lf ++ "</oadr:oadrPayload>") (Content 0)))).
      rewrite then_app. cbn [app]. f_equal. change (Some []) with (lex "" (Content 0)). rewrite <- (LX 0%nat ""). f_equal. rewrite str_app_nil, Eb. rewrite !str_app_assoc. reflexivity. }
    rewrite E. cbn [then_ option_map]. cbn [app build]. change (markup_of "?xml version=""1.0"" encoding=""utf-8""?") with (Some Instruction). cbv iota. cbn [build]. change (is_space newline) with true. cbv iota.
    rewrite BU by (intros _; reflexivity). cbn [place_in fst snd build]. now apply means_expand.
Qed.
Lemma read_message_at signature r e es s : lays r s -> means [] r e -> texts_are unmarked r -> signed_as signature es ->
  exists y, read_expanded (create_text signature s) = Some y /\ alike (Elem (expanded "http://openadr.org/oadr-2.0b/2012/07" "oadrPayload") [] "" (es ++ [e])) y.
Proof.
  intros S M U SG. destruct (read_message_spaced signature r e es s S M U SG) as (y & e' & R & SP & AL). exists y. split; [exact R|].
  eapply alike_trans; [|apply (proj1 spaced_alike); exact SP]. constructor; [apply same_text_refl|]. apply alikes_app; [apply alikes_refl|exact AL].
Qed.
Lemma read_message signature gs object s : shows object s -> unmarked_xml object -> signed_with signature gs ->
  exists y e es, read_expanded (create_text signature s) = Some y /\ alike (Elem (expanded "http://openadr.org/oadr-2.0b/2012/07" "oadrPayload") [] "" (es ++ [e])) y /\
    (exists r, lays r s /\ means [] r e) /\ plainly e object /\ plainly_all es gs.
Proof.
  intros (r & e & S & M & P) U SG. assert (Ur : texts_are unmarked r) by (eapply means_texts; [exact M|]; eapply plainly_texts; [exact P|]; now apply unmarked_texts).
  assert (SA : exists es, signed_as signature es /\ plainly_all es gs).
  { destruct SG as [[-> ->]|(g & -> & (rg & eg & Sg & Mg & Pg) & CG & NG)].
    - exists []. split; [now left|constructor].
    - exists [eg]. split; [right; exists rg, eg; repeat split; auto; eapply means_texts; [exact Mg|]; eapply plainly_texts; [exact Pg|]; now apply clean_texts|]. constructor; [exact Pg|constructor]. }
  destruct SA as (es & SA & PA). destruct (read_message_at signature r e es s S M Ur SA) as (y & R & AL). exists y, e, es. repeat split; auto. exists r. now split.
Qed.
Lemma read_envelope signature gs object s : shows object s -> unmarked_xml object -> signed_with signature gs ->
  exists y, read_xml (create_text signature s) = Some y /\ to_val y = to_val (Elem "oadrPayload" [] "" (gs ++ [object])) /\ xml_name y = "oadrPayload".
Proof.
  intros S U SG. destruct (read_message signature gs object s S U SG) as (z & e & es & R & AL & _ & P & PA).
  assert (PP : plainly (Elem (expanded "http://openadr.org/oadr-2.0b/2012/07" "oadrPayload") [] "" (es ++ [e])) (Elem "oadrPayload" [] "" (gs ++ [object]))).
  { constructor; [|constructor|now apply plainly_app]. apply na_expanded; [now left|]. split; [discriminate|]. cbn [all_chars]. unfold name_char. repeat split; vm_compute; intuition discriminate. }
  destruct (proj1 alike_plainly _ _ AL _ PP) as (y & Py & ALy). exists y. unfold read_xml. rewrite R. cbn [option_map]. rewrite (proj1 plainly_plain _ _ Py). split; [reflexivity|]. split.
  - symmetry. now apply alike_val.
  - symmetry. apply (alike_name _ _ ALy).
Qed.

(** ** From the functions to the meaning of names *)
Lemma lookup_declared p sc u : lookup p sc = Some u -> declared p sc u.
Proof.
  unfold lookup. induction sc as [|[k v] sc IH]; cbn [get]; [discriminate|]. destruct (String.eqb_spec p k) as [->|N].
  - intros [= ->]. exists [], sc. split; [reflexivity|intros []].
  - intros H. destruct (IH H) as (a & b & -> & M). exists ((k, v) :: a), b. split; [reflexivity|]. cbn [map fst In]. intuition.
Qed.
Lemma lookup_undeclared p sc : lookup p sc = None -> ~ In p (map fst sc).
Proof.
  unfold lookup. induction sc as [|[k v] sc IH]; cbn [get]; [intros _ []|]. destruct (String.eqb_spec p k) as [->|N]; [discriminate|]. intros H. cbn [map fst In]. specialize (IH H). intuition.
Qed.
Lemma writes_split n q : writes n q -> (split_colon q = None /\ q = n /\ name n) \/ exists p, split_colon q = Some (p, n) /\ q = p ++ ":" ++ n /\ name p /\ name n.
Proof. intros [N|p P N]; [left|right; exists p]; (split; [|auto]); [apply split_colon_none, N|apply split_colon_prefix, P]. Qed.
Lemma not_declaration q p : split_colon q = None \/ (exists a b, split_colon q = Some (a, b) /\ a <> "xmlns") -> q <> "xmlns:" ++ p.
Proof.
  intros H ->. change ("xmlns:" ++ p) with ("xmlns" ++ ":" ++ p) in H. rewrite split_colon_prefix in H by exact xmlns_chars. destruct H as [H|(a & b & H & N)]; [discriminate|]. injection H as <- _. now apply N.
Qed.
Lemma declarations_declare raw a : attrs_as raw a -> forall ds, declarations raw = Some ds -> declares raw ds.
Proof.
  intros A. induction A as [| |n q v raw s W _ A IH]; intros ds H; [injection H as <-; constructor|injection H as <-; constructor|]. cbn [declarations] in H.
  destruct (declarations raw) as [ds'|]; [|discriminate]. specialize (IH ds' eq_refl). destruct (String.eqb_spec q "xmlns") as [->|N]; [injection H as <-; now constructor|].
  destruct (writes_split _ _ W) as [(E & -> & Nn)|(p & E & -> & Np & Nn)]; rewrite E in H.
  - injection H as <-. apply de_other; [exact N|intros p; apply not_declaration; now left|exact IH].
  - destruct (String.eqb_spec p "xmlns") as [->|M]; cbn [negb] in H.
    + destruct ((n =? "xml") || (n =? "xmlns") || (v =? "")) eqn:B; [discriminate|]. injection H as <-. apply orb_false_iff in B as [B B3]. apply orb_false_iff in B as [B1 B2].
      apply String.eqb_neq in B1, B2, B3. now apply (de_prefix n).
    + injection H as <-. apply de_other; [exact N|intros k; apply not_declaration; right; now exists p, n|exact IH].
Qed.
Lemma name_element_means sc n q m : writes n q -> element_name sc q = Some m -> element_means sc q m.
Proof.
  intros W H. unfold element_name in H. destruct (writes_split _ _ W) as [(E & -> & N)|(p & E & -> & P & N)]; rewrite E in H.
  - destruct (lookup "" sc) as [u|] eqn:L; [destruct (String.eqb_spec u "") as [->|U]|]; injection H as <-.
    + apply em_none; [exact N|]. left. now apply lookup_declared.
    + apply em_default; [exact N|now apply lookup_declared|exact U].
    + apply em_none; [exact N|]. right. now apply lookup_undeclared.
  - unfold prefixed_name in H. destruct (lookup p sc) as [u|] eqn:L; [|discriminate]. injection H as <-. apply em_prefix; [exact P|exact N|now apply lookup_declared].
Qed.
Lemma names_attributes_mean sc raw a : attrs_as raw a -> forall attrs, attribute_names sc raw = Some attrs -> attributes_mean sc raw attrs.
Proof.
  intros A. induction A as [| |n q v raw s W _ A IH]; intros attrs H; [injection H as <-; constructor|injection H as <-; constructor|]. cbn [attribute_names] in H.
  destruct (attribute_names sc raw) as [l|]; [|discriminate]. specialize (IH l eq_refl). destruct (String.eqb_spec q "xmlns") as [->|N]; [injection H as <-; apply am_declaration; [now left|exact IH]|].
  destruct (writes_split _ _ W) as [(E & -> & Nn)|(p & E & -> & Np & Nn)]; rewrite E in H.
  - injection H as <-. now apply am_local.
  - destruct (String.eqb_spec p "xmlns") as [->|M].
    + injection H as <-. apply am_declaration; [right; now exists n|exact IH].
    + unfold prefixed_name in H. destruct (lookup p sc) as [u|] eqn:L; [|discriminate]. injection H as <-. apply am_prefix; [exact Np|exact M|exact Nn|now apply lookup_declared|exact IH].
Qed.
Lemma nodup_distinct l : distinct l = true -> NoDup l.
Proof.
  induction l as [|x l IH]; intros H; constructor; cbn [distinct] in H; apply andb_prop in H as [A H]; [|now apply IH]. intros J. apply negb_true_iff in A.
  assert (K : existsb (String.eqb x) l = true) by (apply existsb_exists; exists x; split; [exact J|apply String.eqb_refl]). congruence.
Qed.
Lemma expand_means : (forall r s, lays r s -> forall sc e, expand sc r = Some e -> means sc r e) /\
  (forall rs b, lays_all rs b -> forall sc es, all_some (expand sc) rs = Some es -> means_all sc rs es).
Proof.
  assert (G : forall n q raw a t cs, writes n q -> attrs_as raw a -> (forall sc es, all_some (expand sc) cs = Some es -> means_all sc cs es) -> forall sc e, expand sc (Elem q raw t cs) = Some e -> means sc (Elem q raw t cs) e).
  { intros n q raw a t cs W A IH sc e H. cbn [expand] in H. destruct (declarations raw) as [ds|] eqn:D; [|discriminate]. cbv zeta in H. destruct (element_name (ds ++ sc)%list q) as [m|] eqn:E; [|discriminate].
    destruct (attribute_names (ds ++ sc)%list raw) as [attrs|] eqn:AN; [|discriminate]. destruct (all_some (expand (ds ++ sc)%list) cs) as [es|] eqn:C; [|discriminate].
    destruct (distinct (map fst raw) && distinct (map fst attrs)) eqn:N; [|discriminate]. apply andb_prop in N as [N1 N2]. injection H as <-.
    apply (me sc q raw t cs ds m attrs es); [now apply nodup_distinct|eapply declarations_declare; eauto|eapply name_element_means; eauto|eapply names_attributes_mean; eauto|now apply nodup_distinct|now apply IH]. }
  apply lays_mutual.
  - intros n q attrs a t W A sc e H. eapply (G n); eauto. intros sc' es [= <-]. constructor.
  - intros n q attrs a w W A _ sc e H. eapply (G n); eauto. intros sc' es [= <-]. constructor.
  - intros n q attrs a cs b W A _ IH sc e H. eapply (G n); eauto.
  - intros w _ _ sc es [= <-]. constructor.
  - intros w x s cs b _ _ _ IHx _ IHs sc es H. cbn [all_some] in H. fold (all_some (expand sc) cs) in H. destruct (expand sc x) as [e|] eqn:E; [|discriminate]. destruct (all_some (expand sc) cs) as [l|] eqn:F; [|discriminate].
    injection H as <-. constructor; auto.
Qed.

(** Where all that is declared is familiar. *)
Definition familiar_scope (sc : scope) : Prop := Forall (fun d => snd d = "" \/ In (snd d) familiar) sc.
Inductive familiar_xml : xml -> Prop := fx q raw t cs : (forall ds, declares raw ds -> familiar_scope ds) -> Forall familiar_xml cs -> familiar_xml (Elem q raw t cs).
Lemma declared_familiar p sc u : familiar_scope sc -> declared p sc u -> u = "" \/ In u familiar.
Proof. intros F (a & b & -> & _). apply Forall_app in F as [_ F]. inversion F as [|? ? H _]; subst. exact H. Qed.
Lemma means_plainly : (forall sc r e, means sc r e -> familiar_scope sc -> (forall p, ~ (p <> "" /\ declared p sc "")) -> familiar_xml r -> plainly e (plain_xml e)) /\
  (forall sc rs es, means_all sc rs es -> familiar_scope sc -> (forall p, ~ (p <> "" /\ declared p sc "")) -> Forall familiar_xml rs -> plainly_all es (map plain_xml es)).
Proof.
  assert (Ne : forall n, name n -> n <> "") by (intros n [N _]; exact N).
  apply means_mutual.
  - intros sc q raw t cs ds n attrs es _ D E A _ _ IH F P X. inversion X as [? ? ? ? FD FC]; subst. specialize (FD ds D).
    assert (F' : familiar_scope (ds ++ sc)%list) by (now apply Forall_app).
    assert (P' : forall p, ~ (p <> "" /\ declared p (ds ++ sc)%list "")).
    { intros p [Np (x & y & Eq & Nx)]. revert x Eq Nx. clear -D P Np. assert (Q : forall a b, ds = (a ++ (p, "") :: b)%list -> False).
      { clear -D Np. induction D as [|v raw ds D IH|k v raw ds N1 N2 N3 D IH|q v raw ds N1 N2 D IH]; intros a b Eq; [destruct a; discriminate| | |eauto]; destruct a as [|y a]; cbn [app] in Eq; injection Eq as Eq1 Eq2; subst; eauto; now apply Np + now apply N3. }
      intros x Eq Nx. assert (S : (exists e, ds = (x ++ (p, "") :: e)%list) \/ exists e, x = (ds ++ e)%list).
      { clear - Eq. revert x Eq. induction ds as [|d ds IH]; intros x Eq; [right; now exists x|]. destruct x as [|z x]; cbn [app] in Eq; injection Eq as E1 E2; subst; [left; now exists ds|].
        destruct (IH _ E2) as [(e & ->)|(e & ->)]; [left; now exists e|right; now exists e]. }
      destruct S as [(e & S)|(e & ->)]; [now apply (Q x e)|]. rewrite <- app_assoc in Eq. apply app_inv_head in Eq. apply (P p). split; [exact Np|]. exists e, y. split; [exact Eq|]. rewrite map_app, in_app_iff in Nx. tauto. }
    assert (NM : forall u m, name m -> In u familiar -> named (expanded u m) (plain_name (expanded u m))).
    { intros u m N I. rewrite (named_plain (expanded u m) m) by now constructor. now constructor. }
    assert (NL : forall m, name m -> named m (plain_name m)) by (intros m N; rewrite (named_plain m m) by (now apply na_local); now apply na_local).
    assert (PX : forall p u, name p -> declared p (ds ++ sc)%list u -> In u familiar).
    { intros p u Np Du. destruct (declared_familiar _ _ _ F' Du) as [->|I]; [|exact I]. elim (P' p). split; [now apply Ne|exact Du]. }
    cbn [plain_xml]. constructor.
    + destruct E as [p m u Np Nm Du|m u Nm Du U|m Nm _]; auto. apply NM; [exact Nm|]. now apply (PX p). apply NM; [exact Nm|]. destruct (declared_familiar _ _ _ F' Du) as [->|I]; [now elim U|exact I].
    + clear -A NM NL PX. induction A as [|q v raw l _ A IH|m v raw l Nm _ A IH|p m u v raw l Np _ Nm Du A IH]; [constructor|exact IH| |]; (constructor; [|exact IH]); split; cbn [fst snd]; auto. apply NM; [exact Nm|]. now apply (PX p).
    + now apply IH.
  - intros sc _ _ _. constructor.
  - intros sc x e xs es _ IHx _ IHs F P X. inversion X; subst. cbn [map]. constructor; auto.
Qed.
Lemma shows_expand r s e x : lays r s -> expand [] r = Some e -> familiar_xml r -> plain_xml e = x -> shows x s.
Proof.
  intros L E F <-. assert (M : means [] r e) by now apply (proj1 expand_means _ _ L). exists r, e. split; [exact L|]. split; [exact M|].
  apply (proj1 means_plainly _ _ _ M); [constructor| |exact F]. intros p [_ (a & b & H & _)]. destruct a; discriminate H.
Qed.
Definition declared_familiarb (raw : list (string * string)) : bool :=
  match declarations raw with Some ds => forallb (fun d => (snd d =? "") || existsb (String.eqb (snd d)) familiar) ds | None => false end.
Lemma declared_familiarb_spec raw : declared_familiarb raw = true -> forall ds, declares raw ds -> familiar_scope ds.
Proof.
  intros H ds D. assert (E : forallb (fun d => (snd d =? "") || existsb (String.eqb (snd d)) familiar) ds = true) by (unfold declared_familiarb in H; now rewrite (declares_declarations _ _ D) in H).
  apply Forall_forall. intros d I. apply forallb_forall with (x := d) in E; [|exact I]. apply orb_prop in E as [E|E]; [left; now apply String.eqb_eq|right]. apply existsb_exists in E as (u & J & E). apply String.eqb_eq in E. now subst.
Qed.
Fixpoint familiarb (x : xml) : bool := match x with Elem _ raw _ cs => declared_familiarb raw && forallb familiarb cs end.
Lemma familiarb_spec x : familiarb x = true -> familiar_xml x.
Proof.
  revert x. fix IH 1. intros [q raw t cs] H. cbn [familiarb] in H. apply andb_prop in H as [A H]. constructor; [now apply declared_familiarb_spec|].
  induction cs as [|c cs IHc]; constructor; cbn [forallb] in H; apply andb_prop in H as [B H]; [now apply IH|now apply IHc].
Qed.

(** Without namespaces a tree means itself. *)
Inductive bare : xml -> Prop := ba n attrs t cs : name n -> NoDup (map fst attrs) -> Forall (fun a => name (fst a) /\ fst a <> "xmlns") attrs -> Forall bare cs -> bare (Elem n attrs t cs).
Lemma bare_means : forall x, bare x -> means [] x x /\ plainly x x.
Proof.
  fix IH 2. intros x [n attrs t cs N D A F].
  assert (C : means_all [] cs cs /\ plainly_all cs cs) by (induction F as [|c cs H F IHF]; [split; constructor|destruct (IH c H), IHF; split; constructor; assumption]). clear IH.
  assert (DS : declares attrs []).
  { clear D. induction A as [|[k v] attrs [H1 H2] A IHA]; constructor; try assumption. intros p ->. cbn [fst] in H1. change ("xmlns:" ++ p) with ("xmlns" ++ ":" ++ p) in H1.
    pose proof (split_colon_none _ (proj2 H1)) as Z. rewrite split_colon_prefix in Z by exact xmlns_chars. discriminate. }
  split.
  - apply (me [] n attrs t cs [] n attrs cs); [exact D|exact DS|apply em_none; [exact N|right; intros []]| |exact D|exact (proj1 C)].
    clear D DS. induction A as [|[k v] attrs [H1 H2] A IHA]; constructor; assumption.
  - constructor; [now apply na_local| |exact (proj2 C)]. clear D DS. induction A as [|[k v] attrs [H1 H2] A IHA]; constructor; [|exact IHA]. split; [now apply na_local|reflexivity].
Qed.
Lemma bare_shows x s : bare x -> lays x s -> shows x s.
Proof. intros B L. destruct (bare_means x B). exists x, x. auto. Qed.
