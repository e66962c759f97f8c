(** C07 fingerprints, C12 flattening, C13 booleans. *)
From Coq Require Import ZArith String Ascii List Bool Lia.
From Verif.Base Require Import Result PyStr.
From Verif.Model Require Import Text.
From Verif.Spec Require Import TextSpec.
From Verif.Proofs Require Import TextProofs.
Import ListNotations.
Local Open Scope string_scope.

(** ** C07.  [colon_hex] (Spec/TextSpec.v) reads colon-separated upper-case
    hexadecimal bytes.  SHA-256 gives 32 bytes; nothing else about it is used. *)
Theorem C07_fingerprint_format :
  forall sha256 der, length (sha256 der) = 32 ->
    let fp := certificate_fingerprint_from_der sha256 der in
    colon_hex fp (skipn 22 (sha256 der)) /\ String.length fp = 29 /\ length (skipn 22 (sha256 der)) = 10.
Proof.
  intros sha der L fp. pose proof (fingerprint_spec sha der L) as H. split; [exact H|].
  assert (L' : length (skipn 22 (sha der)) = 10) by (rewrite skipn_length, L; reflexivity).
  split; [|exact L']. apply colon_hex_length in H. rewrite L' in H. unfold fp. lia.
Qed.
Print Assumptions C07_fingerprint_format.

Theorem C07_fingerprint_identifies :
  forall sha256 der1 der2, length (sha256 der1) = 32 -> length (sha256 der2) = 32 ->
    (certificate_fingerprint_from_der sha256 der1 = certificate_fingerprint_from_der sha256 der2
     <-> skipn 22 (sha256 der1) = skipn 22 (sha256 der2)).
Proof.
  intros sha d1 d2 L1 L2. split; intros H.
  - eapply colon_hex_fun; [apply fingerprint_spec; assumption|]. rewrite H. now apply fingerprint_spec.
  - unfold certificate_fingerprint_from_der. rewrite !fingerprint_list by assumption. now rewrite H.
Qed.
Print Assumptions C07_fingerprint_identifies.

(** Two digests that differ only outside the last ten bytes. *)
Example C07_example :
  let sha (der : list ascii) := (der ++ map ascii_of_nat (seq 160 32))%list in
  let sha' (der : list ascii) := firstn 32 (map ascii_of_nat (seq (if (length der =? 0)%nat then 7 else 0) 22) ++ map ascii_of_nat (seq 160 10))%list in
  length (sha []) = 32 /\
  certificate_fingerprint_from_der sha [] = "B6:B7:B8:B9:BA:BB:BC:BD:BE:BF" /\
  certificate_fingerprint_from_der sha' [] = certificate_fingerprint_from_der sha' ["a"%char] /\
  sha' [] <> sha' ["a"%char].
Proof. repeat split; try reflexivity. intros H. apply (f_equal (@hd ascii "0"%char)) in H. vm_compute in H. discriminate. Qed.

(** ** C12 *)
Theorem C12_flatten_characterised :
  forall s t, flatten_xml s = t <-> flattening s t.
Proof. intros s t. split; [intros <-; apply flatten_flattening|apply flattening_flatten]. Qed.
Print Assumptions C12_flatten_characterised.

Theorem C12_flatten_preserves_text :
  forall s, ~ has_char "010" (flatten_xml s)
    /\ (forall l, ink s l <-> ink (flatten_xml s) l)
    /\ flatten_xml (flatten_xml s) = flatten_xml s
    /\ (trimmed s -> ~ has_char "010" s -> flatten_xml s = s).
Proof.
  intros s. pose proof (flatten_flattening s) as F. split; [|split; [|split]].
  - eapply flattening_no_newline; exact F.
  - apply flattening_ink; exact F.
  - apply flatten_idempotent.
  - intros T N. apply flattening_flatten.
    pose proof (fl_last "" s "" I T I) as G. simpl in G. rewrite str_app_nil in G. auto.
Qed.
Print Assumptions C12_flatten_preserves_text.

(** What the property leaves open: white space at line ends inside a text is
    lost, so words on different lines are glued together. *)
Theorem C12_lines_are_glued :
  forall a b, trimmed a -> trimmed b -> ~ has_char "010" a -> ~ has_char "010" b ->
    flatten_xml (a ++ String newline b) = a ++ b.
Proof.
  intros a b TA TB NA NB. apply flattening_flatten.
  pose proof (fl_line "" a "" b b I TA I) as G. simpl in G. rewrite !str_app_nil in G. apply G; [assumption|].
  pose proof (fl_last "" b "" I TB I) as G'. simpl in G'. rewrite !str_app_nil in G'. auto.
Qed.
Print Assumptions C12_lines_are_glued.

Example C12_example :
  let s := "  <a>  " ++ String newline ("" ++ String newline ("    <b x='1'/>" ++ String newline "</a>" )) in
  flatten_xml s = "<a><b x='1'/></a>" /\ ink "a b" ["a"; "b"]%char /\ trimmed "<a>" /\
  flatten_xml ("turn" ++ String newline " off") = "turnoff".
Proof.
  split; [reflexivity|split; [|split; [|reflexivity]]].
  - apply ink_char; [apply not_space_blank; reflexivity|]. apply ink_blank; [apply is_space_blank; reflexivity|].
    apply ink_char; [apply not_space_blank; reflexivity|]. constructor.
  - change "<a>" with (strip "<a>"). now destruct (strip_spec "<a>") as (? & ? & _ & _ & T & _).
Qed.

(** ** C13 *)
Theorem C13_booleans :
  forall v : scalar,
    (forall b, v = SBool b -> exists s, booleanformat v = Ok (SStr s) /\ (s = "true" /\ b = true \/ s = "false" /\ b = false) /\ parse_boolean (SStr s) = b) /\
    (v = SStr "true" \/ v = SStr "false" -> booleanformat v = Ok v) /\
    ((exists r, booleanformat v = Ok r) <-> (exists b, v = SBool b) \/ v = SStr "true" \/ v = SStr "false") /\
    (forall e, booleanformat v = Raise e -> e = ValueError) /\
    (parse_boolean v = true <-> v = SStr "true").
Proof.
  intros v. split; [|split; [|split; [|split]]]; [| |split| |apply scalar_eqb_eq].
  - intros b ->. destruct b; [exists "true"|exists "false"]; simpl; auto.
  - intros [->| ->]; reflexivity.
  - intros [r H]. destruct v as [|b| | |s]; simpl in H; try discriminate; [left; eauto|]. right.
    destruct (scalar_eqb (SStr s) (SStr "true")) eqn:E1; [left; now apply scalar_eqb_eq|].
    destruct (scalar_eqb (SStr s) (SStr "false")) eqn:E2; [right; now apply scalar_eqb_eq|discriminate].
  - intros [[b ->]|[->| ->]]; [destruct b|..]; simpl; eauto.
  - intros e H. destruct v as [|[]| | |s]; simpl in H; try discriminate; try congruence.
    destruct (scalar_eqb (SStr s) (SStr "true") || scalar_eqb (SStr s) (SStr "false")); congruence.
Qed.
Print Assumptions C13_booleans.

Example C13_example :
  booleanformat (SBool true) = Ok (SStr "true") /\ booleanformat (SStr "false") = Ok (SStr "false") /\
  booleanformat (SStr "True") = Raise ValueError /\ booleanformat (SInt 1) = Raise ValueError /\ parse_boolean (SStr "True") = false.
Proof. repeat split. Qed.
