(** C81: messages that were damaged on the way are refused. *)
From Coq Require Import ZArith String Ascii List Bool Lia.
From Verif.Base Require Import Result Dict PyStr.
From Verif.Model Require Import Text Normalize Xml XmlText.
From Verif.Spec Require Import XmlTextSpec.
From Verif.Proofs Require Import XmlTextProofs DamageProofs.
From Verif.Properties Require Import P_XmlText.
Import ListNotations.
Local Open Scope string_scope.

(** The receiver takes the text for a message. *)
Definition accepted (num : numbers) (depth : nat) (s : string) : Prop := exists kind payload, parse_message num depth s = Ok (kind, payload).
(** It is no XML; whatever the receiver's number format. *)
Definition refused (s : string) : Prop := forall num depth, parse_message num depth s = Raise XMLSyntaxError.

Lemma accepted_read num depth s : accepted num depth s -> exists x, read_raw s = Some x.
Proof. intros (k & p & E). unfold parse_message, read_xml, read_expanded in E. destruct (read_raw s) as [x|]; [now exists x|discriminate]. Qed.
Lemma unread s : read_raw s = None -> refused s.
Proof. intros E num depth. unfold parse_message, read_xml, read_expanded. now rewrite E. Qed.

Lemma eight (a b c d e f g h : string) : a ++ b ++ c ++ d ++ e ++ f ++ g ++ h = (a ++ b ++ c ++ d ++ e ++ f ++ g) ++ h.
Proof. now rewrite !str_app_assoc. Qed.
Lemma create_text_ends signature rendered : exists a, create_text signature rendered = a ++ "</" ++ "oadr:oadrPayload" ++ ">".
Proof. eexists. unfold create_text, envelope. apply eight. Qed.
Lemma payload_name : writes "oadrPayload" "oadr:oadrPayload".
Proof. apply (wr_prefix "oadrPayload" "oadr"); a_name. Qed.

(** Every beginning of a message, also the empty one; the message may be
    signed or not, and whatever texts are in it. *)
Theorem C81_cut_short : forall num depth signature rendered, accepted num depth (create_text signature rendered) ->
  forall p c rest, create_text signature rendered = p ++ String c rest -> refused p.
Proof.
  intros num depth signature rendered A p c rest E. destruct (accepted_read _ _ _ A) as (x & R). apply unread.
  destruct (create_text_ends signature rendered) as (a & F). rewrite F in *. destruct (writes_chars _ _ payload_name) as [N Q].
  exact (cut_short a "oadr:oadrPayload" x p c rest N Q R E).
Qed.
Print Assumptions C81_cut_short.

(** Two messages, one after the other: neither is read. *)
Theorem C81_doubled : forall num depth a b, accepted num depth a -> accepted num depth b -> refused (a ++ b).
Proof.
  intros num depth a b A B. destruct (accepted_read _ _ _ A) as (x & X). destruct (accepted_read _ _ _ B) as (y & Y). apply unread. exact (doubled a b x y X Y).
Qed.
Print Assumptions C81_doubled.

(** The name at the beginning or at the end of an element, anywhere in a
    message, is another one. *)
Theorem C81_renamed : forall num depth a b n n' q q', writes n q -> writes n' q' -> q <> q' ->
  (accepted num depth (a ++ "</" ++ q ++ ">" ++ b) -> refused (a ++ "</" ++ q' ++ ">" ++ b)) /\
  (forall attrs s, attrs_as attrs s -> accepted num depth (a ++ "<" ++ q ++ s ++ ">" ++ b) -> refused (a ++ "<" ++ q' ++ s ++ ">" ++ b)).
Proof.
  intros num depth a b n n' q q' W W' D. destruct (writes_chars _ _ W) as [N Q]. destruct (writes_chars _ _ W') as [N' Q']. split.
  - intros A. destruct (accepted_read _ _ _ A) as (x & X). apply unread. exact (renamed_end a b q q' x N N' Q Q' D X).
  - intros attrs s AA A. destruct (accepted_read _ _ _ A) as (x & X). apply unread. exact (renamed_start a b n n' q q' attrs s x W W' AA D X).
Qed.
Print Assumptions C81_renamed.

(** A message of a VEN: accepted; cut within the last element: refused; with a
    misspelt element in the middle: refused. *)
Example C81_example :
  accepted ex_num 2 (create_text "" (poll_text "ven 1")) /\
  (exists p, create_text "" (poll_text "ven 1") = p ++ "yload>" /\ refused p) /\
  (exists a b, create_text "" (poll_text "ven 1") = a ++ "</" ++ "ei:venID" ++ ">" ++ b /\ refused (a ++ "</" ++ "ei:venId" ++ ">" ++ b)).
Proof.
  assert (A : accepted ex_num 2 (create_text "" (poll_text "ven 1"))) by (eexists _, _; vm_compute; reflexivity). split; [exact A|].
  set (t := create_text "" (poll_text "ven 1")) in *. vm_compute in t. split.
  - exists (substring 0 (String.length t - 6) t). split; [vm_compute; reflexivity|]. eapply (C81_cut_short ex_num 2 "" (poll_text "ven 1") A _ "y"%char "load>"). vm_compute. reflexivity.
  - assert (E : exists i, index 0 "</ei:venID>" t = Some i) by (eexists; vm_compute; reflexivity). destruct E as (i & E). vm_compute in E. injection E as E.
    exists (substring 0 i t), (substring (i + 11) (String.length t) t). subst i. split; [vm_compute; reflexivity|].
    refine (proj1 (C81_renamed ex_num 2 _ _ "venID" "venId" "ei:venID" "ei:venId" _ _ _) _); [apply (wr_prefix "venID" "ei"); a_name|apply (wr_prefix "venId" "ei"); a_name|discriminate|].
    eexists _, _. vm_compute. reflexivity.
Qed.
