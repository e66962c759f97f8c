From Coq Require Import ZArith String Ascii List Bool Lia.
From Verif.Base Require Import Result PyStr.
From Verif.Model Require Import Text.
From Verif.Spec Require Import TextSpec.
Import ListNotations.
Local Open Scope string_scope.

(** ** Hexadecimal *)
Lemma hex_digit_value n : (n < 16)%N -> hex_value (upper_char (hex_digit n)) = Some n.
Proof.
  intros H. destruct n as [|p]; [reflexivity|].
  do 5 (try (destruct p as [p|p|]; try reflexivity)); exfalso; lia.
Qed.

Lemma hex_byte_upper b :
  exists h l vh vl, upper (hex_byte b) = String h (String l EmptyString) /\
    hex_value h = Some vh /\ hex_value l = Some vl /\ (N_of_ascii b = 16 * vh + vl)%N.
Proof.
  exists (upper_char (hex_digit (N_of_ascii b / 16))), (upper_char (hex_digit (N_of_ascii b mod 16))),
         (N_of_ascii b / 16)%N, (N_of_ascii b mod 16)%N.
  assert (B : (N_of_ascii b < 256)%N).
  { destruct b as [b0 b1 b2 b3 b4 b5 b6 b7]; destruct b0, b1, b2, b3, b4, b5, b6, b7; reflexivity. }
  split; [reflexivity|]. split; [|split].
  - apply hex_digit_value. apply N.div_lt_upper_bound; lia.
  - apply hex_digit_value. apply N.mod_lt; lia.
  - apply N.div_mod; lia.
Qed.

Lemma substring_hex l1 b l2 :
  substring (2 * length l1) 2 (hex_bytes (l1 ++ b :: l2)) = hex_byte b.
Proof.
  induction l1 as [|a l1 IH].
  - simpl. now destruct (hex_bytes l2).
  - replace (2 * length (a :: l1)) with (S (S (2 * length l1))) by (simpl; lia).
    cbn [app hex_bytes hex_byte]. cbn [append substring]. exact IH.
Qed.

Lemma substring_hex_nth l i b : nth_error l i = Some b -> substring (2 * i) 2 (hex_bytes l) = hex_byte b.
Proof.
  intros H. apply nth_error_split in H as (l1 & l2 & -> & <-). apply substring_hex.
Qed.

Lemma substrings_hex pre l :
  map (fun i => upper (substring (2 * i) 2 (hex_bytes (pre ++ l)))) (seq (length pre) (length l))
  = map (fun b => upper (hex_byte b)) l.
Proof.
  revert pre; induction l as [|b l IH]; intros pre; [reflexivity|].
  cbn [length seq map]. rewrite substring_hex. f_equal.
  specialize (IH (pre ++ [b])%list). rewrite app_length in IH. cbn [length] in IH.
  rewrite Nat.add_1_r in IH. rewrite <- app_assoc in IH. exact IH.
Qed.

Lemma fingerprint_list d : length d = 32 ->
  map (fun i => upper (substring i 2 (hex_bytes d))) (range_by2 44 10) = map (fun b => upper (hex_byte b)) (skipn 22 d).
Proof.
  intros L. pose proof (substrings_hex (firstn 22 d) (skipn 22 d)) as H.
  rewrite firstn_skipn in H. rewrite <- H.
  rewrite firstn_length, skipn_length, L. unfold range_by2. change (seq (Nat.min 22 32) (32 - 22)) with (seq 22 10).
  cbn [seq]. cbn [map Nat.add Nat.mul]. reflexivity.
Qed.

Lemma join_colon_hex bs : bs <> [] -> colon_hex (join ":" (map (fun b => upper (hex_byte b)) bs)) bs.
Proof.
  induction bs as [|b bs IH]; [congruence|]; intros _.
  destruct (hex_byte_upper b) as (h & l & vh & vl & E & Hh & Hl & V).
  destruct bs as [|c bs].
  - cbn [map join]. rewrite E. eapply ch_last; eauto.
  - change (join ":" (map (fun b => upper (hex_byte b)) (b :: c :: bs)))
      with (upper (hex_byte b) ++ ":" ++ join ":" (map (fun b => upper (hex_byte b)) (c :: bs))).
    rewrite E. cbn [append]. eapply ch_more; eauto. apply IH; congruence.
Qed.

Lemma N_of_ascii_inj a b : N_of_ascii a = N_of_ascii b -> a = b.
Proof. intros H. rewrite <- (ascii_N_embedding a), <- (ascii_N_embedding b). congruence. Qed.

Lemma colon_hex_fun s b1 b2 : colon_hex s b1 -> colon_hex s b2 -> b1 = b2.
Proof.
  intros H1; revert b2. induction H1; intros b2 K; inversion K; subst.
  - assert (b = b0) by (apply N_of_ascii_inj; congruence). congruence.
  - assert (b = b0) by (apply N_of_ascii_inj; congruence). f_equal; [assumption|]. now apply IHcolon_hex.
Qed.

Lemma colon_hex_length s bs : colon_hex s bs -> String.length s + 1 = 3 * length bs.
Proof. induction 1; simpl in *; lia. Qed.

Lemma fingerprint_spec sha der : length (sha der) = 32 ->
  colon_hex (certificate_fingerprint_from_der sha der) (skipn 22 (sha der)).
Proof.
  intros L. unfold certificate_fingerprint_from_der. rewrite fingerprint_list by assumption.
  apply join_colon_hex. intros E. apply (f_equal (@length _)) in E. rewrite skipn_length, L in E. discriminate.
Qed.

(** ** White space *)
Lemma is_space_blank c : is_space c = true <-> blank c.
Proof.
  unfold blank. split.
  - destruct c as [b0 b1 b2 b3 b4 b5 b6 b7]; destruct b0, b1, b2, b3, b4, b5, b6, b7; intros H; try discriminate H; simpl; tauto.
  - simpl. intros H. repeat (destruct H as [<-|H]; [reflexivity|]). contradiction.
Qed.

Lemma not_space_blank c : is_space c = false <-> ~ blank c.
Proof. rewrite <- is_space_blank. now destruct (is_space c). Qed.

Lemma all_blank_app a b : all_blank (a ++ b) <-> all_blank a /\ all_blank b.
Proof. induction a as [|c a IH]; simpl; [tauto|]. rewrite IH. tauto. Qed.

Lemma has_char_app c a b : has_char c (a ++ b) <-> has_char c a \/ has_char c b.
Proof. induction a as [|d a IH]; simpl; [tauto|]. rewrite IH. tauto. Qed.

Lemma has_char_no_char c s : no_char c s = true <-> ~ has_char c s.
Proof.
  induction s as [|d s IH]; simpl; [tauto|].
  rewrite andb_true_iff, IH, negb_true_iff, Ascii.eqb_neq. intuition congruence.
Qed.

Lemma lstrip_spec s : exists a, s = a ++ lstrip s /\ all_blank a /\ (forall c r, lstrip s = String c r -> ~ blank c).
Proof.
  induction s as [|c s (a & E & B & F)]; simpl.
  - exists "". repeat split; discriminate.
  - destruct (is_space c) eqn:S.
    + exists (String c a). simpl. rewrite <- E. split; [reflexivity|]. split; [|assumption].
      split; [now apply is_space_blank|assumption].
    + exists "". simpl. repeat split. intros c' r H. injection H as <- <-. now apply not_space_blank.
Qed.

Lemma rstrip_spec s : exists b, s = rstrip s ++ b /\ all_blank b /\ (forall p c, rstrip s = p ++ String c "" -> ~ blank c).
Proof.
  induction s as [|c s (b & E & B & F)]; simpl.
  - exists "". repeat split. intros [|d p] c; discriminate.
  - destruct (rstrip s) as [|d t] eqn:R.
    + destruct (is_space c) eqn:S.
      * exists (String c b). simpl in *. subst s. split; [reflexivity|]. split; [split; [now apply is_space_blank|assumption]|].
        intros [|d p] c'; discriminate.
      * exists b. simpl in *. split; [congruence|]. split; [assumption|].
        intros [|d p] c' H; [injection H as <-; now apply not_space_blank|].
        injection H as _ H. destruct p; discriminate.
    + exists b. simpl in *. split; [congruence|]. split; [assumption|].
      intros [|d' p] c' H; [discriminate|]. injection H as -> H. apply (F p c'). assumption.
Qed.

Lemma rstrip_head c r s : rstrip s = String c r -> exists r', s = String c r'.
Proof.
  destruct s as [|d s]; simpl; [discriminate|].
  destruct (rstrip s); [destruct (is_space d); [discriminate|]|]; intros H; injection H as -> _; eauto.
Qed.

Lemma strip_spec s : exists a b, s = a ++ strip s ++ b /\ all_blank a /\ trimmed (strip s) /\ all_blank b.
Proof.
  destruct (lstrip_spec s) as (a & E & A & F). destruct (rstrip_spec (lstrip s)) as (b & E' & B & G).
  exists a, b. unfold strip. split; [congruence|]. split; [assumption|]. split; [|assumption].
  split; [|assumption].
  intros c r H. destruct (rstrip_head _ _ _ H) as [r' H']. eapply F; eassumption.
Qed.

Lemma lstrip_blank a s : all_blank a -> lstrip (a ++ s) = lstrip s.
Proof. induction a as [|c a IH]; simpl; [reflexivity|]. intros [C A]. apply is_space_blank in C. now rewrite C, IH. Qed.

Lemma lstrip_nonblank c s : ~ blank c -> lstrip (String c s) = String c s.
Proof. intros H. apply not_space_blank in H. simpl. now rewrite H. Qed.

Lemma rstrip_blank b : all_blank b -> rstrip b = "".
Proof. induction b as [|c b IH]; simpl; [reflexivity|]. intros [C B]. rewrite IH by assumption. apply is_space_blank in C. now rewrite C. Qed.

Lemma rstrip_app s b : all_blank b -> rstrip (s ++ b) = rstrip s.
Proof. intros B. induction s as [|c s IH]; simpl; [now apply rstrip_blank|]. now rewrite IH. Qed.

Lemma rstrip_trimmed s : (forall p c, s = p ++ String c "" -> ~ blank c) -> rstrip s = s.
Proof.
  induction s as [|c s IH]; intros H; simpl; [reflexivity|].
  rewrite IH. 2:{ intros p d ->. apply (H (String c p) d). reflexivity. }
  destruct s; [|reflexivity].
  specialize (H "" c eq_refl). apply not_space_blank in H. now rewrite H.
Qed.

Lemma strip_unique a m b : all_blank a -> trimmed m -> all_blank b -> strip (a ++ m ++ b) = m.
Proof.
  intros A [T1 T2] B. unfold strip. rewrite lstrip_blank by assumption.
  destruct m as [|c m].
  - simpl. destruct (lstrip_spec b) as (b' & E & _ & _). rewrite E in B. apply all_blank_app in B as [_ B]. now apply rstrip_blank.
  - change (String c m ++ b) with (String c (m ++ b)). rewrite lstrip_nonblank by (eapply T1; reflexivity).
    change (String c (m ++ b)) with (String c m ++ b). rewrite rstrip_app by assumption. now apply rstrip_trimmed.
Qed.

(** ** flatten_xml *)
Lemma join_empty_cons w l : join "" (w :: l) = w ++ join "" l.
Proof. destruct l; simpl; [now rewrite str_app_nil|reflexivity]. Qed.

Lemma flatten_lines l :
  join "" (map strip (filter (fun line => negb (strip line =? "")) l)) = join "" (map strip l).
Proof.
  induction l as [|w l IH]; [reflexivity|]. cbn [filter].
  destruct (String.eqb_spec (strip w) "") as [E|E]; cbn [negb].
  - cbn [map]. rewrite join_empty_cons, E, IH. reflexivity.
  - cbn [map]. rewrite !join_empty_cons. f_equal. assumption.
Qed.

Lemma flatten_xml_lines s : flatten_xml s = join "" (map strip (split newline s)).
Proof. apply flatten_lines. Qed.

Lemma flatten_one s : no_char newline s = true -> flatten_xml s = strip s.
Proof. intros H. rewrite flatten_xml_lines, split_no_char by assumption. reflexivity. Qed.

Lemma flatten_more w s : no_char newline w = true -> flatten_xml (w ++ String newline s) = strip w ++ flatten_xml s.
Proof. intros H. rewrite !flatten_xml_lines, split_app by assumption. cbn [map]. now rewrite join_empty_cons. Qed.

Lemma flattening_flatten s t : flattening s t -> flatten_xml s = t.
Proof.
  induction 1.
  - rewrite flatten_one by now apply has_char_no_char. now apply strip_unique.
  - rewrite flatten_more by now apply has_char_no_char. rewrite strip_unique by assumption. congruence.
Qed.

Lemma split_case sep s : (no_char sep s = true) \/ (exists w r, s = w ++ String sep r /\ no_char sep w = true /\ String.length r < String.length s).
Proof.
  induction s as [|c s [IH|(w & r & -> & N & L)]].
  - now left.
  - destruct (Ascii.eqb c sep) eqn:E.
    + right. exists "", s. apply Ascii.eqb_eq in E as ->. simpl. repeat split; lia.
    + left. simpl. now rewrite E.
  - destruct (Ascii.eqb c sep) eqn:E.
    + right. exists "", (w ++ String sep r). apply Ascii.eqb_eq in E as ->. simpl. repeat split; lia.
    + right. exists (String c w), r. simpl in *. rewrite E. repeat split; auto; lia.
Qed.

Lemma flatten_flattening s : flattening s (flatten_xml s).
Proof.
  remember (String.length s) as n eqn:En. revert s En.
  induction n as [n IH] using (well_founded_induction lt_wf); intros s ->.
  destruct (split_case newline s) as [N|(w & r & -> & N & L)].
  - rewrite flatten_one by assumption.
    destruct (strip_spec s) as (a & b & E & A & T & B).
    rewrite E at 1. apply fl_last; try assumption. rewrite <- E. now apply has_char_no_char.
  - rewrite flatten_more by assumption.
    destruct (strip_spec w) as (a & b & E & A & T & B).
    rewrite E at 1. apply fl_line; try assumption.
    + rewrite <- E. now apply has_char_no_char.
    + eapply IH; [eassumption|reflexivity].
Qed.

Lemma flattening_no_newline s t : flattening s t -> ~ has_char "010" t.
Proof. induction 1; rewrite !has_char_app in *; tauto. Qed.

Lemma trimmed_app a b : trimmed a -> trimmed b -> trimmed (a ++ b).
Proof.
  intros [A1 A2] [B1 B2]. split.
  - intros c r H. destruct a; simpl in H; [eauto|]. injection H as -> _. eapply A1; reflexivity.
  - intros p c H. destruct b as [|d b].
    + rewrite str_app_nil in H. eauto.
    + clear A1 A2 B1. revert p H. induction a as [|e a IH]; intros p H; simpl in H; [eauto|].
      destruct p as [|f p]; simpl in H; injection H as -> H; [destruct a; discriminate|eauto].
Qed.

Lemma flattening_trimmed s t : flattening s t -> trimmed t.
Proof. induction 1; auto using trimmed_app. Qed.

Lemma ink_blank_app a s l : all_blank a -> (ink (a ++ s) l <-> ink s l).
Proof.
  induction a as [|c a IH]; simpl; [tauto|]. intros [C A]. rewrite <- (IH A). split.
  - inversion 1; subst; [assumption|contradiction].
  - now apply ink_blank.
Qed.

Lemma ink_app a b l : ink (a ++ b) l <-> exists la lb, ink a la /\ ink b lb /\ l = (la ++ lb)%list.
Proof.
  revert l. induction a as [|c a IH]; intros l; simpl.
  - split.
    + intros H. exists [], l. repeat split; auto. constructor.
    + intros (la & lb & A & B & ->). inversion A; subst. assumption.
  - split.
    + inversion 1; subst; apply IH in H4 as (la & lb & A & B & ->) || apply IH in H3 as (la & lb & A & B & ->).
      * exists la, lb. repeat split; auto. now constructor.
      * exists (c :: la), lb. repeat split; auto. now constructor.
    + intros (la & lb & A & B & ->). inversion A; subst.
      * apply ink_blank; [assumption|]. apply IH. eauto.
      * simpl. apply ink_char; [assumption|]. apply IH. eauto.
Qed.

Lemma ink_all_blank a l : all_blank a -> ink a l -> l = [].
Proof. intros A H. rewrite <- (str_app_nil a) in H. apply ink_blank_app in H; [|assumption]. now inversion H. Qed.

Lemma all_blank_ink a : all_blank a -> ink a [].
Proof. intros A. rewrite <- (str_app_nil a). apply ink_blank_app; [assumption|constructor]. Qed.

Lemma newline_blank : blank "010".
Proof. now apply is_space_blank. Qed.

Lemma line_ink a m b l : all_blank a -> all_blank b -> (ink (a ++ m ++ b) l <-> ink m l).
Proof.
  intros A B. rewrite ink_blank_app by assumption. rewrite ink_app. split.
  - intros (la & lb & HA & HB & ->). apply ink_all_blank in HB as ->; [|assumption]. now rewrite app_nil_r.
  - intros H. exists l, []. rewrite app_nil_r. auto using all_blank_ink.
Qed.

Lemma flattening_ink s t : flattening s t -> forall l, ink s l <-> ink t l.
Proof.
  induction 1; intros l.
  - now apply line_ink.
  - rewrite !(ink_app _ _ l). split; intros (la & lb & HA & HB & ->); exists la, lb.
    + inversion HB; subst; [|exfalso; eauto using newline_blank].
      repeat split; [now apply line_ink in HA|now apply IHflattening].
    + repeat split; [now apply line_ink|]. apply ink_blank; [apply newline_blank|]. now apply IHflattening.
Qed.

Lemma flatten_idempotent s : flatten_xml (flatten_xml s) = flatten_xml s.
Proof.
  pose proof (flatten_flattening s) as F.
  apply flattening_flatten.
  pose proof (fl_last "" (flatten_xml s) "" I (flattening_trimmed _ _ F) I) as G.
  simpl in G. rewrite str_app_nil in G. apply G. now apply flattening_no_newline in F.
Qed.
