(** Regular expressions and the white space of Model/Schema.v. *)
From Coq Require Import ZArith String Ascii List Bool Lia.
From Verif.Base Require Import PyStr.
From Verif.Model Require Import Schema.
From Verif.Spec Require Import AcceptedSpec.
Import ListNotations.
Local Open Scope string_scope.

(** ** Languages *)
Inductive language : regex -> string -> Prop :=
| l_empty : language Empty ""
| l_char f c : f c = true -> language (CharIn f) (String c "")
| l_seq a b s t : language a s -> language b t -> language (Seq a b) (s ++ t)
| l_left a b s : language a s -> language (Or a b) s
| l_right a b s : language b s -> language (Or a b) s
| l_stop a : language (Star a) ""
| l_more a s t : language a s -> language (Star a) t -> language (Star a) (s ++ t).

Lemma in_seq a b s : language (Seq a b) s <-> exists t u, s = t ++ u /\ language a t /\ language b u.
Proof. split; [inversion 1; subst; eauto|intros (t & u & -> & A & B); now constructor]. Qed.
Lemma nullable_spec r : nullable r = true <-> language r "".
Proof.
  induction r as [| |f|a IHa b IHb|a IHa b IHb|a IHa]; cbn [nullable].
  - split; [discriminate|inversion 1].
  - split; [constructor|reflexivity].
  - split; [discriminate|inversion 1].
  - rewrite andb_true_iff, IHa, IHb. split.
    + intros [A B]. exact (l_seq a b "" "" A B).
    + intros L. inversion L as [| |? ? s t A B E| | | |]; subst. destruct s; [|discriminate]. cbn in *. now subst t.
  - rewrite orb_true_iff, IHa, IHb. split; [intros [A|B]; [now apply l_left|now apply l_right]|]. inversion 1; auto.
  - split; [constructor|reflexivity].
Qed.
Lemma star_cons a s : language (Star a) s -> s = "" \/ exists c t u, s = String c (t ++ u) /\ language a (String c t) /\ language (Star a) u.
Proof.
  remember (Star a) as r eqn:E. intros L. induction L as [| | | | |x|x s t A _ B IH]; try discriminate; [now left|]. injection E as ->.
  destruct s as [|c s]; [cbn [append]; now apply IH|]. right. exists c, s, t. repeat split; auto.
Qed.
Lemma derive_spec r c s : language (derive c r) s <-> language r (String c s).
Proof.
  revert s. induction r as [| |f|a IHa b IHb|a IHa b IHb|a IHa]; intros s; cbn [derive].
  - split; inversion 1.
  - split; inversion 1.
  - destruct (f c) eqn:F; split; intros L; inversion L; subst; [now constructor|constructor|congruence].
  - assert (D : language (Seq (derive c a) b) s <-> exists t u, s = t ++ u /\ language a (String c t) /\ language b u).
    { split.
      - intros L. inversion L as [| |? ? t u A B E| | | |]; subst. exists t, u. repeat split; [now apply IHa|exact B].
      - intros (t & u & -> & A & B). constructor; [now apply IHa|exact B]. }
    assert (E : language (Seq a b) (String c s) <-> (exists t u, s = t ++ u /\ language a (String c t) /\ language b u) \/ (language a "" /\ language b (String c s))).
    { split.
      - intros L. apply in_seq in L as (t & u & E & A & B). destruct t as [|d t]; cbn [append] in E; [subst u; now right|]. injection E as -> ->. left. now exists t, u.
      - intros [(t & u & -> & A & B)|[A B]]; [exact (l_seq a b (String c t) u A B)|exact (l_seq a b "" (String c s) A B)]. }
    rewrite E. destruct (nullable a) eqn:N.
    + apply nullable_spec in N. split.
      * intros L. inversion L; subst; [left; now apply D|right; split; [exact N|now apply IHb]].
      * intros [H|[_ B]]; [apply l_left; now apply D|apply l_right; now apply IHb].
    + rewrite D. split; [now left|]. intros [H|[A _]]; [exact H|]. apply nullable_spec in A. congruence.
  - split; intros L; inversion L; subst; [apply l_left|apply l_right|apply l_left|apply l_right]; (now apply IHa) || (now apply IHb).
  - split.
    + intros L. inversion L as [| |? ? t u A B E| | | |]; subst. apply IHa in A. exact (l_more a (String c t) u A B).
    + intros L. apply star_cons in L as [E|(d & t & u & E & A & B)]; [discriminate|]. injection E as -> ->. constructor; [now apply IHa|exact B].
Qed.
Lemma matches_spec r s : matches r s = true <-> language r s.
Proof. revert r. induction s as [|c s IH]; intros r; cbn [matches]; [apply nullable_spec|]. rewrite IH. apply derive_spec. Qed.

(** ** Taking languages apart *)
Lemma in_never s : ~ language Never s. Proof. inversion 1. Qed.
Lemma in_empty s : language Empty s <-> s = "". Proof. split; [now inversion 1|intros ->; constructor]. Qed.
Lemma in_char f s : language (CharIn f) s <-> exists c, s = String c "" /\ f c = true.
Proof. split; [inversion 1; subst; eauto|intros (c & -> & F); now constructor]. Qed.
Lemma in_lit c s : language (lit c) s <-> s = String c "".
Proof. unfold lit. rewrite in_char. split; [intros (d & -> & E); apply Ascii.eqb_eq in E; now subst|intros ->; exists c; split; [reflexivity|apply Ascii.eqb_refl]]. Qed.
Lemma in_or a b s : language (Or a b) s <-> language a s \/ language b s.
Proof. split; [inversion 1; auto|intros [A|B]; [now apply l_left|now apply l_right]]. Qed.
Lemma in_perhaps a s : language (perhaps a) s <-> s = "" \/ language a s.
Proof. unfold perhaps. now rewrite in_or, in_empty. Qed.
Lemma in_star_char f s : language (Star (CharIn f)) s <-> each (fun c => f c = true) s.
Proof.
  split.
  - intros L. remember (Star (CharIn f)) as r eqn:E. induction L as [| | | | |x|x s t A _ B IH]; try discriminate; [exact I|]. injection E as ->.
    apply in_char in A as (c & -> & F). cbn [append each]. auto.
  - induction s as [|c s IH]; [constructor|]. intros [F R]. change (String c s) with (String c "" ++ s). constructor; [now constructor|auto].
Qed.
Lemma in_plus_char f s : language (plus (CharIn f)) s <-> s <> "" /\ each (fun c => f c = true) s.
Proof.
  unfold plus. rewrite in_seq. split.
  - intros (t & u & -> & A & B). apply in_char in A as (c & -> & F). apply in_star_char in B. cbn [append each]. split; [discriminate|auto].
  - intros [N E]. destruct s as [|c s]; [contradiction|]. destruct E as [F R]. exists (String c ""), s. split; [reflexivity|]. split; [now constructor|now apply in_star_char].
Qed.
Lemma in_digits s : language (plus digit) s <-> digits s. Proof. apply in_plus_char. Qed.
Lemma in_letters w s : language (letters w) s <-> s = w.
Proof.
  unfold letters. revert s. induction w as [|c w IH]; intros s; cbn [list_ascii_of_string map seqs]; [apply in_empty|].
  destruct w as [|d w]; [apply in_lit|]. cbn [list_ascii_of_string map] in *. rewrite in_seq. split.
  - intros (t & u & -> & A & B). apply in_lit in A. apply IH in B. now subst.
  - intros ->. exists (String c ""), (String d w). split; [reflexivity|]. split; [now apply in_lit|now apply IH].
Qed.

(** ** Nothing but white space *)
Fixpoint dead (r : regex) : bool :=
  match r with Never => true | Seq a b => dead a || dead b | Or a b => dead a && dead b | _ => false end.
Lemma dead_spec r s : dead r = true -> ~ language r s.
Proof.
  revert s. induction r as [| |f|a IHa b IHb|a IHa b IHb|a IHa]; intros s D L; cbn [dead] in D; try discriminate.
  - now apply in_never in L.
  - apply in_seq in L as (t & u & -> & A & B). apply orb_true_iff in D as [D|D]; [now apply (IHa t D)|now apply (IHb u D)].
  - apply andb_true_iff in D as [D1 D2]. apply in_or in L as [L|L]; [now apply (IHa s D1)|now apply (IHb s D2)].
Qed.

(** ** Words *)
Lemma space_spec c : space c = true <-> spacing c.
Proof.
  unfold space, spacing. rewrite existsb_exists. split; [intros (d & I & E); apply Ascii.eqb_eq in E; now subst|]. intros I. exists c. split; [exact I|apply Ascii.eqb_refl].
Qed.
Lemma each_app P a b : each P (a ++ b) <-> each P a /\ each P b.
Proof. induction a as [|c a IH]; cbn [append each]; [tauto|]. rewrite IH. tauto. Qed.
Lemma words_from_spec s : forall w, (w = "" \/ word w) -> exists ws, words_from w s = ws /\ (forall b, each spacing b -> worded (b ++ w ++ s) ws).
Proof.
  induction s as [|c s IH]; intros w W; cbn [words_from].
  - eexists. split; [reflexivity|]. intros b B. rewrite str_app_nil. destruct W as [->|W]; [rewrite str_app_nil; now constructor|].
    destruct w as [|d w]; [now destruct W|]. now constructor.
  - destruct (space c) eqn:S.
    + destruct (IH "" (or_introl eq_refl)) as (ws & E & H). eexists. split; [reflexivity|]. intros b B. rewrite E. apply space_spec in S. destruct W as [->|W].
      * cbn [app append]. replace (b ++ String c s) with ((b ++ String c "") ++ "" ++ s) by (cbn [append]; rewrite str_app_assoc; reflexivity). apply H. apply each_app. split; [exact B|now split].
      * destruct w as [|d w]; [now destruct W|]. cbn [app]. apply wd_more; [exact B|exact W|exact S|]. exact (H "" I).
    + assert (NS : ~ spacing c) by (intros I; apply space_spec in I; congruence).
      assert (W' : word (w ++ String c "")).
      { split; [destruct w; discriminate|]. apply each_app. split; [destruct W as [->|W]; [exact I|apply W]|]. now split. }
      destruct (IH _ (or_intror W')) as (ws & E & H). exists ws. split; [exact E|]. intros b B. specialize (H b B). now rewrite str_app_assoc in H.
Qed.
Lemma words_worded s : worded s (words s).
Proof. destruct (words_from_spec s "" (or_introl eq_refl)) as (ws & E & H). unfold words. rewrite E. exact (H "" I). Qed.

Lemma words_blank b s : each spacing b -> words_from "" (b ++ s) = words_from "" s.
Proof. induction b as [|c b IH]; [reflexivity|]. intros [S B]. cbn [append words_from]. apply space_spec in S. rewrite S. cbn [app]. now apply IH. Qed.
Lemma words_word w s : forall v, each (fun c => ~ spacing c) w -> words_from v (w ++ s) = words_from (v ++ w) s.
Proof.
  induction w as [|c w IH]; intros v E; cbn [append]; [now rewrite str_app_nil|]. destruct E as [N E]. cbn [words_from].
  destruct (space c) eqn:S; [apply space_spec in S; contradiction|]. rewrite IH by exact E. now rewrite str_app_assoc.
Qed.
Lemma worded_words s ws : worded s ws -> words s = ws.
Proof.
  unfold words. induction 1 as [b B|b w B [N W]|b w c r ws B [N W] S _ IH].
  - rewrite <- (str_app_nil b), words_blank by exact B. reflexivity.
  - rewrite words_blank by exact B. rewrite <- (str_app_nil w) at 1. rewrite words_word by exact W. cbn [append words_from]. destruct w; [contradiction|reflexivity].
  - rewrite words_blank by exact B. rewrite words_word by exact W. cbn [append words_from]. apply space_spec in S. rewrite S, IH. destruct w; [contradiction|reflexivity].
Qed.
Lemma reads_collapse t v : reads t v <-> v = collapse t.
Proof. split; [intros (ws & W & ->); unfold collapse; now rewrite (worded_words _ _ W)|intros ->; exists (words t); split; [apply words_worded|reflexivity]]. Qed.

(** A single word is read as it is. *)
Lemma collapse_word w : word w -> collapse w = w.
Proof. intros W. unfold collapse. now rewrite (worded_words w [w] (wd_last "" w I W)). Qed.
Lemma collapse_blank b : each spacing b -> collapse b = "".
Proof. intros B. unfold collapse. now rewrite (worded_words b [] (wd_none b B)). Qed.
