(** C96: a certificate has one fingerprint, in whatever form it comes. *)
From Coq Require Import ZArith NArith String Ascii List Bool Lia.
From Verif.Base Require Import Result PyStr.
From Verif.Model Require Import Text Normalize Xml XmlText SchemaTypes Signature Certificates.
From Verif.Spec Require Import TextSpec SignatureSpec CertificateSpec.
From Verif.Proofs Require Import TextProofs SignatureProofs CertificateProofs.
Import ListNotations.
Local Open Scope string_scope.

(** The fingerprint that a party is shown of its certificate file (to hand to
    the others) is the one of its certificate. *)
Definition C96_full : Prop := forall sha256 der others t,
  chain_text (der :: others) t ->
  certificate_fingerprint sha256 t = Ok (certificate_fingerprint_from_der sha256 der).

(** The certificate in a message, in whatever lines and with whatever
    indentation, has the fingerprint of the certificate itself; which is the
    one that the VTN has of a connection with that certificate. *)
Theorem C96_message : forall sha256 x e der,
  first_named (in_ds "X509Certificate") x e -> own_text e <> "" -> laid_out (own_text e) (base64 der) ->
  exists pem, extract_pem_cert x = Ok pem
    /\ certificate_fingerprint sha256 pem = Ok (certificate_fingerprint_from_der sha256 der).
Proof.
  intros sha x e der F N L. exists (pem (own_text e)). split.
  - apply certificate_spec. exists e, (own_text e). split; [exact F|]. split; [reflexivity|]. split; [exact N|]. now apply pem_form.
  - unfold certificate_fingerprint. now rewrite (one_pem _ _ (pem_of_text _ _ L)).
Qed.
Theorem C96_connection : forall sha256 connection f,
  get_cert_fingerprint_from_request sha256 connection = Some f <->
  exists der, connection = Some (Some der) /\ der <> [] /\ f = certificate_fingerprint_from_der sha256 der.
Proof.
  intros sha [[[|b r]|]|] f; cbn [get_cert_fingerprint_from_request]; split.
  - discriminate.
  - intros (d & [= <-] & N & _). now elim N.
  - intros [= <-]. exists (b :: r). split; [reflexivity|]. split; [discriminate|reflexivity].
  - intros (d & [= <-] & _ & ->). reflexivity.
  - discriminate.
  - intros (d & [=] & _).
  - discriminate.
  - intros (d & [=] & _).
Qed.
Theorem C96_same : forall sha256 x e der,
  first_named (in_ds "X509Certificate") x e -> laid_out (own_text e) (base64 der) -> der <> [] ->
  exists f, get_cert_fingerprint_from_request sha256 (Some (Some der)) = Some f
    /\ bind (extract_pem_cert x) (certificate_fingerprint sha256) = Ok f.
Proof.
  intros sha x e der F L N. exists (certificate_fingerprint_from_der sha der). split.
  - apply C96_connection. eauto.
  - assert (T : own_text e <> "").
    { intros T. rewrite T in L. inversion L as [E| |]. destruct der as [|a [|b [|c r]]]; [now elim N|discriminate..]. }
    destruct (C96_message sha x e der F T L) as (p & -> & Q). exact Q.
Qed.

(** One certificate in a file. *)
Theorem C96_file : forall sha256 der t, pem_text der t ->
  certificate_fingerprint sha256 t = Ok (certificate_fingerprint_from_der sha256 der).
Proof. intros sha der t P. unfold certificate_fingerprint. now rewrite (one_pem _ _ P). Qed.
(** A chain in a file: right if the length of the first certificate is not a
    multiple of three (its base64 then ends with = signs, where reading
    stops). *)
Theorem C96_chain_partial : forall sha256 der others t,
  chain_text (der :: others) t -> others = [] \/ Nat.modulo (length der) 3 <> 0 ->
  certificate_fingerprint sha256 t = Ok (certificate_fingerprint_from_der sha256 der).
Proof.
  intros sha der r t C H. unfold certificate_fingerprint. replace (PEM_cert_to_DER_cert t) with (@Ok (list ascii) der); [reflexivity|].
  symmetry. destruct H as [->|H]; [now apply chain_one|]. apply (chain_padded _ _ _ C). unfold whole. now apply Nat.eqb_neq.
Qed.
(** Otherwise the letters of the lines between the certificates, and the next
    certificate, are read as if they belonged to it. *)
Theorem C96_chain_wrong : forall der others t d,
  chain_text (der :: others) t -> others <> [] -> Nat.modulo (length der) 3 = 0 ->
  PEM_cert_to_DER_cert t = Ok d -> exists b more, d = (der ++ b :: more)%list.
Proof. intros der r t d C N H. apply (chain_whole _ _ _ _ C N). unfold whole. now apply Nat.eqb_eq. Qed.
(** A file with anything before the first certificate (as openssl writes the
    attributes of a bag) has no fingerprint; there is no other error than
    ValueError. *)
Theorem C96_leading : forall sha256 t, (forall r, t <> "-----BEGIN CERTIFICATE-----" ++ r) -> certificate_fingerprint sha256 t = Raise ValueError.
Proof.
  intros sha t N. unfold certificate_fingerprint, PEM_cert_to_DER_cert. destruct (startswith PEM_HEADER t) eqn:E; [|reflexivity].
  apply startswith_spec in E as (r & E). now elim (N r).
Qed.
(** So has one that was cut within a group of four letters. *)
Theorem C96_cut : forall sha256 t, cut_text t -> certificate_fingerprint sha256 t = Raise ValueError.
Proof. intros sha t (body & letters & tail & -> & LO & L & N & B). unfold certificate_fingerprint. change "-----BEGIN CERTIFICATE-----" with PEM_HEADER. change "-----END CERTIFICATE-----" with PEM_FOOTER. now rewrite (cut_fails body letters tail LO L N B). Qed.
Theorem C96_fails : forall sha256 t e, certificate_fingerprint sha256 t = Raise e -> e = ValueError.
Proof.
  intros sha t e. unfold certificate_fingerprint. destruct (PEM_cert_to_DER_cert t) eqn:E; cbn [bind]; [discriminate|]. intros [= <-]. exact (pem_fails _ _ E).
Qed.

(** A chain of two, the first certificate of three bytes.  (The digest of the
    example is the number of bytes.) *)
Definition three : list ascii := ["M"%char; "I"%char; "I"%char].
Definition four : list ascii := ["M"%char; "I"%char; "I"%char; "C"%char].
Definition example_digest (l : list ascii) : list ascii := (repeat "000"%char 31 ++ [ascii_of_nat (length l)])%list.
Definition file_of (bodies : list string) : string :=
  List.fold_right (fun b r => PEM_HEADER ++ lf ++ b ++ lf ++ PEM_FOOTER ++ lf ++ r) "" bodies.
Lemma lf_blank : blank "010".
Proof. exact newline_blank. Qed.
Lemma refl_laid_out s : laid_out s s.
Proof. induction s; [apply lo_end|now apply lo_char]. Qed.
Lemma file_of_chain ders : chain_text ders (file_of (map base64 ders)).
Proof.
  induction ders as [|d r IH]; [reflexivity|]. cbn [chain_text map file_of fold_right].
  exists (PEM_HEADER ++ lf ++ base64 d ++ lf ++ PEM_FOOTER ++ lf), (file_of (map base64 r)). split; [rewrite !app_assoc_s; reflexivity|]. split; [|exact IH].
  exists (lf ++ base64 d ++ lf), lf. split; [rewrite !app_assoc_s; reflexivity|]. split; [|split; [exact lf_blank|exact I]].
  apply lo_blank; [exact lf_blank|]. apply laid_out_app; [apply refl_laid_out|split; [exact lf_blank|exact I]].
Qed.
Theorem C96_refuted : ~ C96_full.
Proof.
  intros H. specialize (H example_digest three [four] _ (file_of_chain _)).
  vm_compute in H. discriminate H.
Qed.

Example C96_example_cut : cut_text "-----BEGIN CERTIFICATE-----TUlJQ-----END CERTIFICATE-----".
Proof.
  exists "TUlJQ", "TUlJQ", "". split; [reflexivity|]. split; [repeat constructor|]. split; [|split; [discriminate | exact I]].
  split; [exists 19%N; now split|]. split; [exists 20%N; now split|]. split; [exists 37%N; now split|]. split; [exists 9%N; now split|]. split; [exists 16%N; now split | exact I].
Qed.
Example C96_example_base64 : base64 three = "TUlJ" /\ base64 four = "TUlJQw==".
Proof. split; reflexivity. Qed.
Example C96_example_file : certificate_fingerprint example_digest (file_of [base64 four; base64 three]) = Ok "00:00:00:00:00:00:00:00:00:04".
Proof. reflexivity. Qed.
Example C96_example_lines : certificate_fingerprint example_digest (pem (" TU" ++ lf ++ "  lJ Qw=" ++ lf ++ "=")) = Ok "00:00:00:00:00:00:00:00:00:04".
Proof. reflexivity. Qed.
Example C96_example_wrong : certificate_fingerprint example_digest (file_of [base64 three; base64 four]) = Ok "00:00:00:00:00:00:00:00:00:1E"
  /\ certificate_fingerprint example_digest (file_of [base64 three; base64 three]) = Raise ValueError.
Proof. split; vm_compute; reflexivity. Qed.
Example C96_example_leading : certificate_fingerprint example_digest ("Bag Attributes" ++ lf ++ file_of [base64 four]) = Raise ValueError.
Proof. reflexivity. Qed.
Example C96_example_connection : get_cert_fingerprint_from_request example_digest (Some None) = None
  /\ get_cert_fingerprint_from_request example_digest (Some (Some three)) = Some "00:00:00:00:00:00:00:00:00:03".
Proof. split; reflexivity. Qed.

Print Assumptions C96_message.
Print Assumptions C96_connection.
Print Assumptions C96_same.
Print Assumptions C96_file.
Print Assumptions C96_chain_partial.
Print Assumptions C96_chain_wrong.
Print Assumptions C96_leading.
Print Assumptions C96_cut.
Print Assumptions C96_fails.
Print Assumptions C96_refuted.
