From Coq Require Import ZArith NArith String Ascii List Bool Lia.
From Verif.Base Require Import Result PyStr ListExtra.
From Verif.Model Require Import Text Signature Certificates.
From Verif.Spec Require Import TextSpec CertificateSpec.
From Verif.Proofs Require Import TextProofs SignatureProofs.
Import ListNotations.
Local Open Scope string_scope.

Lemma app_assoc_s a b c : (a ++ b) ++ c = a ++ (b ++ c).
Proof. induction a as [|x a IH]; cbn; congruence. Qed.
Lemma app_nil_s a : a ++ "" = a.
Proof. induction a as [|x a IH]; cbn; congruence. Qed.
Lemma length_app_s a b : String.length (a ++ b) = String.length a + String.length b.
Proof. induction a as [|x a IH]; cbn; congruence. Qed.

(** ** The alphabet *)
Definition below64 (P : N -> bool) : bool := forallb (fun k => P (N.of_nat k)) (seq 0 64).
Lemma below64_spec P : below64 P = true -> forall n, (n < 64)%N -> P n = true.
Proof.
  unfold below64. rewrite forallb_forall. intros H n L. specialize (H (N.to_nat n)). rewrite N2Nat.id in H. apply H. apply in_seq. lia.
Qed.
Lemma letter_ok n : (n < 64)%N -> letter_value (letter n) = Some n /\ Ascii.eqb (letter n) "=" = false /\ (N_of_ascii (letter n) <? 128)%N = true.
Proof.
  intros L.
  assert (H : (match letter_value (letter n) with Some m => N.eqb m n | None => false end && negb (Ascii.eqb (letter n) "=") && (N_of_ascii (letter n) <? 128)%N) = true).
  { revert n L. apply below64_spec. vm_compute. reflexivity. }
  apply andb_true_iff in H as [H C]. apply andb_true_iff in H as [A B]. destruct (letter_value (letter n)) as [m|]; [|discriminate A].
  apply N.eqb_eq in A as ->. apply negb_true_iff in B. auto.
Qed.
Definition all_bytes (P : ascii -> bool) : bool := forallb (fun k => P (ascii_of_N (N.of_nat k))) (seq 0 256).
Lemma all_bytes_spec P : all_bytes P = true -> forall c, P c = true.
Proof.
  unfold all_bytes. rewrite forallb_forall. intros H c. specialize (H (N.to_nat (N_of_ascii c))). rewrite N2Nat.id, ascii_N_embedding in H.
  apply H. apply in_seq. pose proof (N_ascii_bounded c). lia.
Qed.
Lemma blank_ok c : blank c -> letter_value c = None /\ Ascii.eqb c "=" = false /\ (N_of_ascii c <? 128)%N = true.
Proof.
  intros B. apply is_space_blank in B.
  assert (H : implb (is_space c) (match letter_value c with Some m => false | None => true end && negb (Ascii.eqb c "=") && (N_of_ascii c <? 128)%N) = true).
  { revert c B. intros c _. revert c. apply all_bytes_spec. vm_compute. reflexivity. }
  rewrite B in H. cbn [implb] in H. apply andb_true_iff in H as [H C]. apply andb_true_iff in H as [A D]. destruct (letter_value c); [discriminate A|]. apply negb_true_iff in D. auto.
Qed.

(** ** Decoding *)
Lemma a2b_letter n r quad left pads : (n < 64)%N -> a2b (String (letter n) r) quad left pads =
  match quad with
  | 0 => a2b r 1 n 0
  | 1 => bind (a2b r 2 (n mod 16)%N 0) (fun l => Ok (ascii_of_N (left * 4 + n / 16) :: l))
  | 2 => bind (a2b r 3 (n mod 4)%N 0) (fun l => Ok (ascii_of_N (left * 16 + n / 4) :: l))
  | _ => bind (a2b r 0 0%N 0) (fun l => Ok (ascii_of_N (left * 64 + n) :: l))
  end.
Proof. intros L. destruct (letter_ok n L) as (A & B & _). cbn [a2b]. now rewrite A, B. Qed.
Lemma a2b_space s t rest : laid_out s t -> forall quad left pads, a2b (s ++ rest) quad left pads = a2b (t ++ rest) quad left pads.
Proof.
  induction 1 as [|c s t _ IH|c s t B _ IH]; intros quad left pads; [reflexivity| |].
  - cbn [append a2b]. destruct (Ascii.eqb c "="); [destruct (2 <=? quad)%nat; [destruct (4 <=? quad + S pads)%nat; [reflexivity|]|]; apply IH|].
    destruct (letter_value c); [|apply IH]. destruct quad as [|[|[|]]]; now rewrite IH.
  - destruct (blank_ok c B) as (V & E & _). cbn [append a2b]. rewrite V, E. apply IH.
Qed.
Lemma a2b_fresh s left pads : a2b s 0 left pads = a2b s 0 0%N 0.
Proof.
  revert left pads. induction s as [|c r IH]; intros left pads; [reflexivity|]. cbn [a2b Nat.leb]. destruct (Ascii.eqb c "="); [apply IH|].
  destruct (letter_value c); [reflexivity|apply IH].
Qed.

Lemma bytes_eq n a : n = N_of_ascii a -> ascii_of_N n = a.
Proof. intros ->. apply ascii_N_embedding. Qed.
Ltac nlia := zify; Z.to_euclidean_division_equations; lia.
Lemma three_ind (P : list ascii -> Prop) : P [] -> (forall a, P [a]) -> (forall a b, P [a; b]) -> (forall a b c r, P r -> P (a :: b :: c :: r)) -> forall l, P l.
Proof.
  intros H0 H1 H2 H3. assert (G : forall l, P l /\ (forall a, P (a :: l)) /\ (forall a b, P (a :: b :: l))).
  { induction l as [|x l (A & B & C)]; [auto|]. split; [apply B|]. split; [intros a; apply C|]. intros a b. now apply H3. }
  intros l. apply G.
Qed.
Definition whole (l : list ascii) : bool := Nat.eqb (Nat.modulo (length l) 3) 0.
Lemma decode_base64 l rest : a2b (base64 l ++ rest) 0 0%N 0 =
  if whole l then bind (a2b rest 0 0%N 0) (fun m => Ok (l ++ m)%list) else Ok l.
Proof.
  revert rest. induction l as [|a|a b|a b c r IH] using three_ind; intros rest.
  - cbn. now destruct (a2b rest 0 0%N 0).
  - pose proof (N_ascii_bounded a). cbn [base64 append]. repeat (rewrite a2b_letter by nlia). change (whole [a]) with false.
    match goal with |- bind ?x _ = _ => change x with (@Ok (list ascii) []) end. cbn [bind]. rewrite (bytes_eq _ a) by nlia. reflexivity.
  - pose proof (N_ascii_bounded a). pose proof (N_ascii_bounded b). cbn [base64 append]. repeat (rewrite a2b_letter by nlia). change (whole [a; b]) with false.
    match goal with |- bind (bind ?x _) _ = _ => change x with (@Ok (list ascii) []) end. cbn [bind]. rewrite (bytes_eq _ a), (bytes_eq _ b) by nlia. reflexivity.
  - pose proof (N_ascii_bounded a). pose proof (N_ascii_bounded b). pose proof (N_ascii_bounded c). cbn [base64 append]. repeat (rewrite a2b_letter by nlia).
    rewrite IH. replace (whole (a :: b :: c :: r)) with (whole r).
    2:{ unfold whole. cbn [length]. replace (S (S (S (length r)))) with (length r + 1 * 3) by lia. rewrite Nat.mod_add by lia. reflexivity. }
    destruct (whole r); [destruct (a2b rest 0 0%N 0) as [m|e]|]; cbn [bind app]; try reflexivity;
      rewrite (bytes_eq _ a), (bytes_eq _ b), (bytes_eq _ c) by nlia; reflexivity.
Qed.
Lemma decode_layout body l rest : laid_out body (base64 l) -> a2b (body ++ rest) 0 0%N 0 =
  if whole l then bind (a2b rest 0 0%N 0) (fun m => Ok (l ++ m)%list) else Ok l.
Proof. intros L. rewrite (a2b_space _ _ rest L). apply decode_base64. Qed.

Lemma is_ascii_app a b : is_ascii (a ++ b) = is_ascii a && is_ascii b.
Proof. induction a as [|c a IH]; cbn [append is_ascii]; [reflexivity|]. now rewrite IH, andb_assoc. Qed.
Lemma is_ascii_blank s : all_blank s -> is_ascii s = true.
Proof. induction s as [|c s IH]; [reflexivity|]. intros [B R]. cbn [is_ascii]. destruct (blank_ok c B) as (_ & _ & ->). auto. Qed.
Lemma is_ascii_base64 l : is_ascii (base64 l) = true.
Proof.
  induction l as [|a|a b|a b c r IH] using three_ind; [reflexivity| | |].
  - pose proof (N_ascii_bounded a). cbn [base64 is_ascii]. rewrite !(fun n H => proj2 (proj2 (letter_ok n H))) by nlia. reflexivity.
  - pose proof (N_ascii_bounded a). pose proof (N_ascii_bounded b). cbn [base64 is_ascii]. rewrite !(fun n H => proj2 (proj2 (letter_ok n H))) by nlia. reflexivity.
  - pose proof (N_ascii_bounded a). pose proof (N_ascii_bounded b). pose proof (N_ascii_bounded c). cbn [base64 is_ascii]. rewrite !(fun n H => proj2 (proj2 (letter_ok n H))) by nlia. exact IH.
Qed.
Lemma is_ascii_layout s t : laid_out s t -> is_ascii t = true -> is_ascii s = true.
Proof.
  induction 1 as [|c s t _ IH|c s t B _ IH]; [auto| |]; cbn [is_ascii].
  - rewrite !andb_true_iff. intuition.
  - intros A. destruct (blank_ok c B) as (_ & _ & ->). auto.
Qed.
Lemma body_ascii body l : laid_out body (base64 l) -> is_ascii body = true.
Proof. intros L. exact (is_ascii_layout _ _ L (is_ascii_base64 l)). Qed.

(** ** PEM *)
Lemma substring_mid a b c : substring (String.length a) (String.length b) (a ++ b ++ c) = b.
Proof.
  induction a as [|x a IH]; cbn [String.length append substring]; [|exact IH].
  induction b as [|y b IH]; cbn [String.length append substring]; [now destruct c|]. now rewrite IH.
Qed.
Lemma trimmed_pem m : trimmed (PEM_HEADER ++ m ++ PEM_FOOTER).
Proof.
  assert (N : ~ blank "-"). { intros B. destruct (blank_ok _ B) as (_ & _ & _). apply is_space_blank in B. discriminate B. }
  split.
  - intros c r E. unfold PEM_HEADER in E. cbn [append] in E. injection E as <- _. exact N.
  - intros p c E. replace c with "-"%char; [exact N|]. unfold PEM_FOOTER in E.
    change "-----END CERTIFICATE-----" with ("-----END CERTIFICATE----" ++ "-") in E. rewrite <- !app_assoc_s in E.
    revert E. generalize ((PEM_HEADER ++ m) ++ "-----END CERTIFICATE----"). intros q. revert p. induction q as [|x q IH]; intros [|y p] E; cbn [append] in E.
    + now injection E.
    + injection E as _ E. destruct p; discriminate E.
    + injection E as _ E. destruct q; discriminate E.
    + injection E as _ E. exact (IH p E).
Qed.
Lemma pem_der m tail : all_blank tail -> PEM_cert_to_DER_cert (PEM_HEADER ++ m ++ PEM_FOOTER ++ tail) = decodebytes m.
Proof.
  intros B. unfold PEM_cert_to_DER_cert.
  replace (startswith PEM_HEADER (PEM_HEADER ++ m ++ PEM_FOOTER ++ tail)) with true by (symmetry; apply startswith_spec; eauto).
  assert (S : strip (PEM_HEADER ++ m ++ PEM_FOOTER ++ tail) = PEM_HEADER ++ m ++ PEM_FOOTER).
  { replace (PEM_HEADER ++ m ++ PEM_FOOTER ++ tail) with ("" ++ (PEM_HEADER ++ m ++ PEM_FOOTER) ++ tail) by (cbn [append]; now rewrite !app_assoc_s).
    apply strip_unique; [exact I|apply trimmed_pem|exact B]. }
  cbv zeta. rewrite S. replace (ends_with PEM_FOOTER (PEM_HEADER ++ m ++ PEM_FOOTER)) with true.
  2:{ symmetry. apply ends_with_spec. exists (PEM_HEADER ++ m). now rewrite app_assoc_s. }
  cbn [negb]. rewrite !length_app_s. replace (_ - _ - _) with (String.length m) by lia. now rewrite substring_mid.
Qed.
Lemma one_der l body tail : laid_out body (base64 l) -> all_blank tail -> PEM_cert_to_DER_cert (PEM_HEADER ++ body ++ PEM_FOOTER ++ tail) = Ok l.
Proof.
  intros L B. rewrite pem_der by exact B. unfold decodebytes. rewrite (body_ascii _ _ L).
  rewrite <- (app_nil_s body), (decode_layout _ _ _ L). cbn [a2b bind]. rewrite app_nil_r. now destruct (whole l).
Qed.
Lemma one_pem l t : pem_text l t -> PEM_cert_to_DER_cert t = Ok l.
Proof. intros (body & tail & -> & L & B). now apply one_der. Qed.

(** A chain of at least one: what is between its first line and its last. *)
Lemma chain_ends l r t : chain_text (l :: r) t -> exists m tail, t = PEM_HEADER ++ m ++ PEM_FOOTER ++ tail /\ all_blank tail /\ is_ascii m = true
  /\ exists body, laid_out body (base64 l) /\ (r = [] -> m = body) /\ (r <> [] -> exists tail1 m', all_blank tail1 /\ m = body ++ PEM_FOOTER ++ tail1 ++ PEM_HEADER ++ m').
Proof.
  revert l t. induction r as [|l2 r IH]; intros l t (t1 & t2 & -> & (body & tail & -> & L & B) & C).
  - cbn [chain_text] in C. subst t2. rewrite app_nil_s. exists body, tail. split; [reflexivity|]. split; [exact B|]. split; [exact (body_ascii _ _ L)|].
    exists body. split; [exact L|]. split; [reflexivity|]. intros N. now elim N.
  - destruct (IH l2 t2 C) as (m & tl & -> & B2 & A & _). exists (body ++ PEM_FOOTER ++ tail ++ PEM_HEADER ++ m), tl.
    split; [unfold PEM_HEADER, PEM_FOOTER; now rewrite !app_assoc_s|]. split; [exact B2|]. split.
    + rewrite !is_ascii_app, (body_ascii _ _ L), (is_ascii_blank _ B), A. reflexivity.
    + exists body. split; [exact L|]. split; [discriminate|]. intros _. exists tail, m. auto.
Qed.
Lemma footer_decodes rest m : a2b (PEM_FOOTER ++ rest) 0 0%N 0 = Ok m -> exists b m', m = b :: m'.
Proof.
  unfold PEM_FOOTER. cbn. destruct (a2b rest 2 4%N 0) as [x|]; cbn [bind]; intros E; [|discriminate E]. injection E as <-. eauto.
Qed.
Lemma chain_one l t : chain_text [l] t -> PEM_cert_to_DER_cert t = Ok l.
Proof. intros (t1 & t2 & -> & P & E). cbn [chain_text] in E. subst t2. rewrite app_nil_s. now apply one_pem. Qed.
Lemma chain_padded l r t : chain_text (l :: r) t -> whole l = false -> PEM_cert_to_DER_cert t = Ok l.
Proof.
  intros C W. destruct r as [|l2 r]; [now apply chain_one|].
  destruct (chain_ends _ _ _ C) as (m & tail & -> & B & A & body & L & _ & N). destruct (N ltac:(discriminate)) as (tail1 & m' & _ & ->).
  rewrite pem_der by exact B. unfold decodebytes. rewrite A, (decode_layout _ _ _ L), W. reflexivity.
Qed.
Lemma chain_whole l r t d : chain_text (l :: r) t -> r <> [] -> whole l = true -> PEM_cert_to_DER_cert t = Ok d -> exists b more, d = (l ++ b :: more)%list.
Proof.
  intros C Nr W. destruct (chain_ends _ _ _ C) as (m & tail & -> & B & A & body & L & _ & N). destruct (N Nr) as (tail1 & m' & _ & ->).
  rewrite pem_der by exact B. unfold decodebytes. rewrite A, (decode_layout _ _ _ L), W.
  destruct (a2b (PEM_FOOTER ++ _) 0 0%N 0) as [x|] eqn:E; cbn [bind]; [|discriminate]. intros [= <-]. apply footer_decodes in E as (b & x' & ->). eauto.
Qed.
Lemma a2b_fails s quad left pads e : a2b s quad left pads = Raise e -> e = ValueError.
Proof.
  revert quad left pads. induction s as [|c r IH]; intros quad left pads; cbn [a2b].
  - destruct quad; [discriminate|now intros [= <-]].
  - destruct (Ascii.eqb c "="); [destruct (2 <=? quad)%nat; [destruct (4 <=? quad + S pads)%nat; [discriminate|]|]; apply IH|].
    destruct (letter_value c) as [v|]; [|apply IH]. destruct quad as [|[|[|q]]]; [apply IH| | |];
      match goal with |- bind (a2b ?a ?b ?x ?d) _ = _ -> _ => destruct (a2b a b x d) as [l|e'] eqn:E end; cbn [bind]; try discriminate; intros [= <-]; exact (IH _ _ _ E).
Qed.
Lemma pem_fails s e : PEM_cert_to_DER_cert s = Raise e -> e = ValueError.
Proof.
  unfold PEM_cert_to_DER_cert, decodebytes. destruct (negb (startswith PEM_HEADER s)); [now intros [= <-]|]. cbv zeta.
  destruct (negb (ends_with PEM_FOOTER (strip s))); [now intros [= <-]|]. destruct (is_ascii _); [apply a2b_fails|now intros [= <-]].
Qed.
Lemma laid_out_app a b c : laid_out a b -> all_blank c -> laid_out (a ++ c) b.
Proof.
  induction 1 as [|x s t _ IH|x s t B _ IH]; intros BC; cbn [append]; [|now apply lo_char, IH|now apply lo_blank, IH].
  induction c as [|x c IH]; [apply lo_end|]. destruct BC as [Bx Bc]. now apply lo_blank, IH.
Qed.
Lemma pem_of_text l t : laid_out t (base64 l) -> pem_text l (pem t).
Proof.
  intros L. assert (Blf : blank "010"). { exact newline_blank. }
  unfold pem. destruct (ends_with XmlText.lf t).
  - exists (XmlText.lf ++ t), XmlText.lf. split; [now rewrite app_assoc_s|]. split; [now apply lo_blank|]. now split.
  - exists (XmlText.lf ++ t ++ XmlText.lf), XmlText.lf. split; [now rewrite !app_assoc_s|]. split; [apply lo_blank; [exact Blf|]; apply laid_out_app; [exact L|now split]|]. now split.
Qed.

(** A text of letters that is not made of groups of four. *)
Lemma a2b_cut t : all_letters t -> forall quad left, quad < 4 -> (quad + String.length t) mod 4 <> 0 -> a2b t quad left 0 = Raise ValueError.
Proof.
  induction t as [|c t IH]; intros L quad left Q N; cbn [String.length] in N.
  - cbn [a2b]. destruct quad; [now elim N | reflexivity].
  - destruct L as [(n & B & ->) L]. rewrite (a2b_letter n t quad left 0 B). destruct quad as [|[|[|[|quad]]]]; [apply (IH L); [lia | exact N] | | | |lia].
    + rewrite (IH L); [reflexivity | lia | exact N].
    + rewrite (IH L); [reflexivity | lia | exact N].
    + rewrite (IH L); [reflexivity | lia |]. intros E. apply N. replace (3 + S (String.length t)) with (String.length t + 1 * 4) by lia. rewrite Nat.mod_add by lia. exact E.
Qed.
Lemma cut_fails body t tail : laid_out body t -> all_letters t -> String.length t mod 4 <> 0 -> all_blank tail -> PEM_cert_to_DER_cert (PEM_HEADER ++ body ++ PEM_FOOTER ++ tail) = Raise ValueError.
Proof.
  intros LO L N B. rewrite pem_der by exact B. unfold decodebytes. destruct (is_ascii body); [|reflexivity].
  rewrite <- (app_nil_s body), (a2b_space _ _ "" LO), app_nil_s. apply a2b_cut; [exact L | lia | exact N].
Qed.
