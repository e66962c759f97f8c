(** Strings: ASCII/byte strings, decimal digits, splitting, prefixes.

    Python text is modelled as a sequence of 8-bit characters; the digit and
    letter classes are the ASCII ones (Python's \d and str methods also know
    other Unicode digits and letters: not modelled). *)
From Coq Require Import ZArith NArith String Ascii List Bool Lia.
Import ListNotations.
Local Open Scope string_scope.
Local Open Scope Z_scope.

Definition is_digit (c : ascii) : bool :=
  let n := Ascii.N_of_ascii c in (N.leb 48 n && N.leb n 57)%bool.

Definition digit_val (c : ascii) : Z := Z.of_N (Ascii.N_of_ascii c) - 48.

Definition digit_char (d : Z) : ascii := Ascii.ascii_of_N (Z.to_N (d + 48)).

(** Longest prefix of digits, and the rest (greedy \d* ). *)
Fixpoint span_digits (s : string) : string * string :=
  match s with
  | EmptyString => (EmptyString, EmptyString)
  | String c r =>
      if is_digit c then let (a, b) := span_digits r in (String c a, b)
      else (EmptyString, s)
  end.

Fixpoint all_digits (s : string) : bool :=
  match s with
  | EmptyString => true
  | String c r => is_digit c && all_digits r
  end.

(** int() of a digit string. *)
Fixpoint int_acc (s : string) (acc : Z) : Z :=
  match s with
  | EmptyString => acc
  | String c r => int_acc r (acc * 10 + digit_val c)
  end.
Definition int_of (s : string) : Z := int_acc s 0.

(** str() of a non-negative integer. *)
Fixpoint dec_acc (fuel : nat) (n : Z) (acc : string) : string :=
  match fuel with
  | O => acc
  | S f =>
      let acc' := String (digit_char (n mod 10)) acc in
      if n / 10 =? 0 then acc' else dec_acc f (n / 10) acc'
  end.
Definition dec_fuel (n : Z) : nat := S (Z.to_nat (Z.log2 n)).
Definition dec (n : Z) : string := dec_acc (dec_fuel n) n EmptyString.

(** str() of an integer. *)
Definition str_of_Z (n : Z) : string :=
  if n <? 0 then String "-"%char (dec (- n)) else dec n.

(** Zero-padded to [w] characters ("%0wd"), for non-negative n. *)
Fixpoint zeros (k : nat) : string :=
  match k with O => EmptyString | S k' => String "0"%char (zeros k') end.
Definition pad (w : nat) (n : Z) : string :=
  let s := dec n in zeros (w - String.length s) ++ s.

Fixpoint string_rev_acc (s acc : string) : string :=
  match s with EmptyString => acc | String c r => string_rev_acc r (String c acc) end.

(** [s.startswith(p)] together with the remainder. *)
Fixpoint strip_prefix (p s : string) : option string :=
  match p, s with
  | EmptyString, _ => Some s
  | String a p', String b s' => if Ascii.eqb a b then strip_prefix p' s' else None
  | String _ _, EmptyString => None
  end.

Definition startswith (p s : string) : bool :=
  match strip_prefix p s with Some _ => true | None => false end.

(** [sub in s] for strings. *)
Fixpoint contains (sub s : string) : bool :=
  startswith sub s ||
  match s with EmptyString => false | String _ r => contains sub r end.

(** [s.split(sep)] for a one-character separator. *)
Fixpoint split (sep : ascii) (s : string) : list string :=
  match s with
  | EmptyString => [EmptyString]
  | String c r =>
      if Ascii.eqb c sep then EmptyString :: split sep r
      else match split sep r with
           | [] => [String c EmptyString]
           | w :: ws => String c w :: ws
           end
  end.

Fixpoint join (sep : string) (l : list string) : string :=
  match l with
  | [] => EmptyString
  | [s] => s
  | s :: r => s ++ sep ++ join sep r
  end.

(** ASCII str.lower() / str.islower() *)
Definition is_upper (c : ascii) : bool :=
  let n := Ascii.N_of_ascii c in (N.leb 65 n && N.leb n 90)%bool.
Definition is_lower (c : ascii) : bool :=
  let n := Ascii.N_of_ascii c in (N.leb 97 n && N.leb n 122)%bool.
Definition lower_char (c : ascii) : ascii :=
  if is_upper c then Ascii.ascii_of_N (Ascii.N_of_ascii c + 32) else c.
Fixpoint lower (s : string) : string :=
  match s with EmptyString => EmptyString | String c r => String (lower_char c) (lower r) end.

(** * Lemmas *)

Lemma str_app_assoc (a b c : string) : (a ++ b) ++ c = a ++ (b ++ c).
Proof. induction a; simpl; congruence. Qed.

Lemma str_app_nil (a : string) : a ++ "" = a.
Proof. induction a; simpl; congruence. Qed.

Lemma str_length_app (a b : string) : String.length (a ++ b) = (String.length a + String.length b)%nat.
Proof. induction a; simpl; congruence. Qed.

Lemma str_app_inj_l (a b c : string) : a ++ b = a ++ c -> b = c.
Proof. induction a; simpl; intros H; [assumption|injection H; auto]. Qed.

Lemma is_digit_spec c : is_digit c = true <-> (48 <= Ascii.N_of_ascii c <= 57)%N.
Proof. unfold is_digit. rewrite andb_true_iff, !N.leb_le. tauto. Qed.

Lemma digit_val_range c : is_digit c = true -> 0 <= digit_val c <= 9.
Proof. intros H. apply is_digit_spec in H. unfold digit_val. lia. Qed.

Lemma digit_char_N d : 0 <= d <= 9 -> Ascii.N_of_ascii (digit_char d) = Z.to_N (d + 48).
Proof.
  intros H. unfold digit_char. apply Ascii.N_ascii_embedding.
  apply N2Z.inj_lt. rewrite Z2N.id by lia. simpl. lia.
Qed.

Lemma is_digit_char d : 0 <= d <= 9 -> is_digit (digit_char d) = true.
Proof.
  intros H. apply is_digit_spec. rewrite digit_char_N by assumption.
  split; apply N2Z.inj_le; rewrite Z2N.id by lia; simpl; lia.
Qed.

Lemma digit_val_char d : 0 <= d <= 9 -> digit_val (digit_char d) = d.
Proof. intros H. unfold digit_val. rewrite digit_char_N, Z2N.id by lia. lia. Qed.

Lemma digit_char_val c : is_digit c = true -> digit_char (digit_val c) = c.
Proof.
  intros H. apply is_digit_spec in H. unfold digit_char, digit_val.
  replace (Z.of_N (N_of_ascii c) - 48 + 48) with (Z.of_N (N_of_ascii c)) by lia.
  rewrite N2Z.id. apply Ascii.ascii_N_embedding.
Qed.

Lemma digit_val_inj c d : digit_val c = digit_val d -> c = d.
Proof.
  unfold digit_val. intros H.
  rewrite <- (Ascii.ascii_N_embedding c), <- (Ascii.ascii_N_embedding d). f_equal. lia.
Qed.

Lemma span_digits_app s t :
  all_digits s = true ->
  (match t with String c _ => is_digit c = false | EmptyString => True end) ->
  span_digits (s ++ t) = (s, t).
Proof.
  intros Hs Ht. induction s as [|c s IH]; simpl in *.
  - destruct t as [|c t]; simpl; [reflexivity|]. now rewrite Ht.
  - apply andb_true_iff in Hs as [Hc Hs]. rewrite Hc, (IH Hs). reflexivity.
Qed.

Lemma span_digits_spec s a b :
  span_digits s = (a, b) ->
  s = a ++ b /\ all_digits a = true /\
  match b with String c _ => is_digit c = false | EmptyString => True end.
Proof.
  revert a b; induction s as [|c s IH]; simpl; intros a b H.
  - injection H as <- <-. auto.
  - destruct (is_digit c) eqn:E.
    + destruct (span_digits s) as [a' b'] eqn:E'. injection H as <- <-.
      destruct (IH _ _ eq_refl) as (-> & Ha & Hb). simpl. rewrite E. auto.
    + injection H as <- <-. simpl. rewrite E. auto.
Qed.

Lemma all_digits_app a b : all_digits (a ++ b) = all_digits a && all_digits b.
Proof. induction a; simpl; [reflexivity|]. rewrite IHa. apply andb_assoc. Qed.

Lemma int_acc_app a b acc : int_acc (a ++ b) acc = int_acc b (int_acc a acc).
Proof. revert acc; induction a; simpl; intros; auto. Qed.

Lemma int_acc_lin s acc : int_acc s acc = acc * 10 ^ Z.of_nat (String.length s) + int_of s.
Proof.
  unfold int_of. revert acc. induction s as [|c s IH]; intros acc.
  - simpl. lia.
  - simpl String.length. simpl int_acc. rewrite IH, (IH (digit_val c)).
    rewrite Nat2Z.inj_succ, Z.pow_succ_r by lia. lia.
Qed.

Lemma int_of_app a b : int_of (a ++ b) = int_of a * 10 ^ Z.of_nat (String.length b) + int_of b.
Proof. unfold int_of at 1. rewrite int_acc_app. apply int_acc_lin. Qed.

Lemma int_of_range s : all_digits s = true -> 0 <= int_of s < 10 ^ Z.of_nat (String.length s).
Proof.
  induction s as [|c s IH]; intros H.
  - simpl. unfold int_of; simpl. lia.
  - simpl in H. apply andb_true_iff in H as [Hc Hs]. specialize (IH Hs).
    apply digit_val_range in Hc.
    change (String c s) with (String c EmptyString ++ s). rewrite int_of_app, str_length_app.
    replace (int_of (String c "")) with (digit_val c) by (unfold int_of; simpl; lia).
    rewrite Nat2Z.inj_add. rewrite Z.pow_add_r by lia. simpl (Z.of_nat (String.length (String c ""))).
    rewrite Z.pow_1_r. nia.
Qed.

Lemma dec_acc_spec fuel n acc :
  0 <= n -> n < 10 ^ Z.of_nat fuel ->
  exists s, dec_acc fuel n acc = s ++ acc /\ all_digits s = true /\ int_of s = n /\
            (fuel <> 0%nat -> s <> "") /\ (0 < n -> exists c r, s = String c r /\ c <> "0"%char).
Proof.
  revert n acc. induction fuel as [|fuel IH]; intros n acc Hn Hf.
  - simpl in Hf. assert (n = 0) by lia. subst. exists "". repeat split; auto; try lia; congruence.
  - simpl dec_acc.
    assert (Hm : 0 <= n mod 10 <= 9) by (pose proof (Z.mod_pos_bound n 10); lia).
    destruct (n / 10 =? 0) eqn:E.
    + apply Z.eqb_eq in E.
      assert (n mod 10 = n) by (pose proof (Z.div_mod n 10); lia).
      rewrite H in *. exists (String (digit_char n) ""). repeat split.
      * simpl. now rewrite is_digit_char.
      * unfold int_of. simpl. rewrite digit_val_char; lia.
      * congruence.
      * intros Hp. eexists _, _. split; [reflexivity|]. intros E0.
        apply (f_equal digit_val) in E0. rewrite digit_val_char in E0 by lia. change (digit_val "0") with 0 in E0. lia.
    + apply Z.eqb_neq in E.
      rewrite Nat2Z.inj_succ, Z.pow_succ_r in Hf by lia.
      assert (0 <= n / 10) by (apply Z.div_pos; lia).
      destruct (IH (n / 10) (String (digit_char (n mod 10)) acc)) as (s & E1 & E2 & E3 & E4 & E5).
      { assumption. } { apply Z.div_lt_upper_bound; lia. }
      exists (s ++ String (digit_char (n mod 10)) ""). rewrite E1. repeat split.
      * rewrite str_app_assoc. reflexivity.
      * rewrite all_digits_app, E2. simpl. now rewrite is_digit_char.
      * rewrite int_of_app, E3. simpl (Z.of_nat _). unfold int_of. simpl.
        rewrite digit_val_char by lia. pose proof (Z.div_mod n 10). lia.
      * intros _ Hs. apply (f_equal String.length) in Hs. rewrite str_length_app in Hs. simpl in Hs. lia.
      * intros _. destruct E5 as (c & r & -> & Hc); [lia|]. exists c. eexists. split; [reflexivity|assumption].
Qed.

Lemma dec_fuel_ok n : 0 <= n -> n < 10 ^ Z.of_nat (dec_fuel n).
Proof.
  intros H. unfold dec_fuel. rewrite Nat2Z.inj_succ, Z2Nat.id by apply Z.log2_nonneg.
  destruct (Z.eq_dec n 0) as [->|]; [reflexivity|].
  apply Z.lt_le_trans with (2 ^ Z.succ (Z.log2 n)).
  - apply Z.log2_spec. lia.
  - apply Z.pow_le_mono_l. lia.
Qed.

Lemma dec_spec n : 0 <= n -> all_digits (dec n) = true /\ int_of (dec n) = n /\ dec n <> "".
Proof.
  intros H. destruct (dec_acc_spec (dec_fuel n) n "" H (dec_fuel_ok n H)) as (s & E & A & B & C & _).
  unfold dec. rewrite E, str_app_nil. repeat split; auto. apply C. discriminate.
Qed.

Lemma dec_digits n : 0 <= n -> all_digits (dec n) = true.
Proof. intros H. now apply dec_spec. Qed.
Lemma int_of_dec n : 0 <= n -> int_of (dec n) = n.
Proof. intros H. now apply dec_spec. Qed.
Lemma dec_nonempty n : 0 <= n -> dec n <> "".
Proof. intros H. now apply dec_spec. Qed.

Lemma dec_nozero n : 0 < n -> exists c r, dec n = String c r /\ c <> "0"%char.
Proof.
  intros H. assert (H0 : 0 <= n) by lia.
  destruct (dec_acc_spec (dec_fuel n) n "" H0 (dec_fuel_ok n H0)) as (s & E & _ & _ & _ & D).
  unfold dec. rewrite E, str_app_nil. auto.
Qed.

Lemma dec_inj a b : 0 <= a -> 0 <= b -> dec a = dec b -> a = b.
Proof. intros Ha Hb H. rewrite <- (int_of_dec a Ha), <- (int_of_dec b Hb). congruence. Qed.

Lemma dec_head_digit n : 0 <= n -> exists c r, dec n = String c r /\ is_digit c = true /\ all_digits r = true.
Proof.
  intros H. pose proof (dec_digits n H). pose proof (dec_nonempty n H).
  destruct (dec n) as [|c r]; [congruence|]. simpl in H0. apply andb_true_iff in H0 as [? ?].
  eauto.
Qed.

Lemma zeros_digits k : all_digits (zeros k) = true.
Proof. induction k; simpl; auto. Qed.
Lemma zeros_length k : String.length (zeros k) = k.
Proof. induction k; simpl; congruence. Qed.
Lemma int_of_zeros k s : int_of (zeros k ++ s) = int_of s.
Proof. unfold int_of. induction k; simpl; auto. Qed.

Lemma pad_spec w n : 0 <= n -> all_digits (pad w n) = true /\ int_of (pad w n) = n.
Proof.
  intros H. unfold pad. rewrite all_digits_app, zeros_digits, int_of_zeros.
  split; [now apply dec_digits | now apply int_of_dec].
Qed.

Lemma digits_length_bound s k :
  all_digits s = true -> (exists c r, s = String c r /\ c <> "0"%char) ->
  int_of s < 10 ^ Z.of_nat k -> (String.length s <= k)%nat.
Proof.
  intros Hd (c & r & -> & Hc) Hlt.
  simpl in Hd. apply andb_true_iff in Hd as [Hdc Hdr].
  destruct (le_lt_dec (String.length (String c r)) k) as [|Hk]; [assumption|exfalso].
  change (String c r) with (String c "" ++ r) in Hlt. rewrite int_of_app in Hlt.
  assert (E : int_of (String c "") = digit_val c) by (unfold int_of; simpl; lia). rewrite E in Hlt.
  assert (1 <= digit_val c).
  { pose proof (digit_val_range c Hdc). destruct (Z.eq_dec (digit_val c) 0) as [E0|]; [|lia].
    exfalso. apply Hc. apply digit_val_inj. rewrite E0. reflexivity. }
  pose proof (int_of_range r Hdr). simpl in Hk.
  assert (10 ^ Z.of_nat k <= 10 ^ Z.of_nat (String.length r)) by (apply Z.pow_le_mono_r; lia).
  nia.
Qed.

Lemma dec_length_le n k : 0 <= n -> n < 10 ^ Z.of_nat k -> k <> 0%nat -> (String.length (dec n) <= k)%nat.
Proof.
  intros H Hlt Hk. destruct (Z.eq_dec n 0) as [->|].
  - change (dec 0) with "0". simpl. lia.
  - apply digits_length_bound; [now apply dec_digits | apply dec_nozero; lia | now rewrite int_of_dec].
Qed.

Lemma pad_length w n : 0 <= n -> n < 10 ^ Z.of_nat w -> w <> 0%nat -> String.length (pad w n) = w.
Proof.
  intros H Hlt Hw. unfold pad. rewrite str_length_app, zeros_length.
  pose proof (dec_length_le n w H Hlt Hw). lia.
Qed.

Lemma strip_prefix_spec p s r : strip_prefix p s = Some r <-> s = p ++ r.
Proof.
  revert s; induction p as [|a p IH]; intros s; simpl.
  - split; congruence.
  - destruct s as [|b s]; [split; discriminate|].
    destruct (Ascii.eqb a b) eqn:E.
    + apply Ascii.eqb_eq in E; subst. rewrite IH. split; [congruence|]. intros H. now injection H.
    + split; [discriminate|]. intros H. injection H as -> _. now rewrite Ascii.eqb_refl in E.
Qed.

Lemma startswith_spec p s : startswith p s = true <-> exists r, s = p ++ r.
Proof.
  unfold startswith. destruct (strip_prefix p s) eqn:E.
  - split; [intros _; exists s0; now apply strip_prefix_spec | reflexivity].
  - split; [discriminate|]. intros [r H]. apply strip_prefix_spec in H. congruence.
Qed.

Lemma contains_spec sub s : contains sub s = true <-> exists a b, s = a ++ sub ++ b.
Proof.
  induction s as [|c s IH]; simpl; rewrite orb_true_iff, startswith_spec.
  - split.
    + intros [[r H]|H]; [exists "", r; exact H | discriminate].
    + intros (a & b & H). left. destruct a; [exists b; exact H | discriminate].
  - rewrite IH. split.
    + intros [[r H]|(a & b & H)]; [exists "", r; exact H | exists (String c a), b; simpl; congruence].
    + intros (a & b & H). destruct a as [|c' a]; simpl in H.
      * left. now exists b.
      * injection H as -> H. right. eauto.
Qed.

Lemma split_nonempty sep s : split sep s <> [].
Proof.
  destruct s as [|c s]; simpl; [discriminate|].
  destruct (Ascii.eqb c sep); [discriminate|]. destruct (split sep s); discriminate.
Qed.

Lemma join_split sep s : join (String sep "") (split sep s) = s.
Proof.
  induction s as [|c s IH]; simpl; [reflexivity|].
  destruct (Ascii.eqb c sep) eqn:E.
  - apply Ascii.eqb_eq in E; subst. pose proof (split_nonempty sep s) as Hs.
    simpl. destruct (split sep s); [congruence|]. simpl in *. congruence.
  - pose proof (split_nonempty sep s). destruct (split sep s) as [|w ws]; [congruence|].
    simpl in *. destruct ws; simpl in *; congruence.
Qed.

(** A string without the separator *)
Fixpoint no_char (c : ascii) (s : string) : bool :=
  match s with EmptyString => true | String a r => negb (Ascii.eqb a c) && no_char c r end.

Lemma split_no_char sep s : no_char sep s = true -> split sep s = [s].
Proof.
  induction s as [|c s IH]; simpl; [reflexivity|]. intros H. apply andb_true_iff in H as [H1 H2].
  rewrite (IH H2). destruct (Ascii.eqb c sep); [discriminate|reflexivity].
Qed.

Lemma split_app sep w s : no_char sep w = true -> split sep (w ++ String sep s) = w :: split sep s.
Proof.
  induction w as [|c w IH]; simpl.
  - intros _. now rewrite Ascii.eqb_refl.
  - intros H. apply andb_true_iff in H as [H1 H2]. rewrite (IH H2).
    destruct (Ascii.eqb c sep); [discriminate|reflexivity].
Qed.

Lemma split_join sep (l : list string) :
  l <> [] -> Forall (fun w => no_char sep w = true) l -> split sep (join (String sep "") l) = l.
Proof.
  intros Hl H. induction l as [|w l IH]; [congruence|].
  inversion H; subst. destruct l as [|w' l].
  - simpl. now apply split_no_char.
  - change (join (String sep "") (w :: w' :: l)) with (w ++ String sep (join (String sep "") (w' :: l))).
    rewrite split_app by assumption. rewrite IH; [reflexivity|discriminate|assumption].
Qed.

Lemma split_parts sep s : Forall (fun w => no_char sep w = true) (split sep s).
Proof.
  induction s as [|c s IH]; simpl; [repeat constructor|].
  destruct (Ascii.eqb c sep) eqn:E; [constructor; [reflexivity|assumption]|].
  destruct (split sep s) as [|w ws]; inversion IH; subst; constructor; simpl; rewrite ?E; auto.
Qed.
