(** C93: what a party accepts as signed was signed, and it is accepted once. *)
From Coq Require Import ZArith String Ascii List Bool Lia Permutation.
From Verif.Base Require Import Result PyStr.
From Verif.Model Require Import DateTime Normalize Xml XmlText Schema SchemaTypes Replay Signature.
From Verif.Spec Require Import Timestamp Instants ReadableSpec SignatureSpec.
From Verif.Proofs Require Import DateTimeProofs.
From Verif.Properties Require Import P_DateTime.
From Verif.Proofs Require Import SignatureProofs.
From Verif.Model Require Import Replay Signature.
From Verif.Spec Require Import ReadableSpec SignatureSpec.
Import ListNotations.
Local Open Scope string_scope.

(** Nobody but the owner of the expected certificate can sign; then the object
    that is read is one that they signed. *)
Definition C93_full_contents : Prop := forall fingerprint_of checks num depth uri foreign expected genuine m s cache r cache' x object,
  unforgeable fingerprint_of checks expected genuine ->
  receive fingerprint_of checks num depth uri foreign expected m s cache = (Ok r, cache') ->
  read_expanded s = Some x -> envelope x object ->
  exists ts, genuine ts /\ In object ts.
(** No signature is accepted twice for the same elements. *)
Definition C93_full_once : Prop := forall fingerprint_of checks num depth uri foreign expected h i j mi si mj sj xi xj ts ri rj,
  in_order (map fst h) -> fair (map fst h) -> (i < j)%nat ->
  nth_error h i = Some (mi, si) -> nth_error h j = Some (mj, sj) -> read_expanded si = Some xi -> read_expanded sj = Some xj ->
  nth_error (receive_all fingerprint_of checks num depth uri foreign expected h []) i = Some (Ok ri) ->
  nth_error (receive_all fingerprint_of checks num depth uri foreign expected h []) j = Some (Ok rj) ->
  signed_parts xi ts -> ~ signed_parts xj ts.

(** The signature of an accepted message is genuine: it is of two elements
    of the document, and the owner of the certificate signed these. *)
Theorem C93_signature_is_genuine : forall fingerprint_of checks num depth uri foreign expected genuine m s cache r cache',
  unforgeable fingerprint_of checks expected genuine ->
  receive fingerprint_of checks num depth uri foreign expected m s cache = (Ok r, cache') ->
  exists x p q, read_expanded s = Some x /\ signed_parts x [p; q] /\ In p (x :: below x) /\ In q (x :: below x) /\ genuine [p; q].
Proof.
  intros fo ck num depth uri foreign expected genuine m s cache r cache' U R. apply receive_ok in R as (x & X & P & _). apply schema_reads in X.
  destruct (proper_genuine fo ck expected genuine x U P) as (ts & SP & L & G). destruct ts as [|p [|q [|]]]; try discriminate L.
  exists x, p, q. split; [exact X|]. split; [exact SP|]. split; [|split]; [apply (signed_parts_in _ _ _ SP); now left|apply (signed_parts_in _ _ _ SP); right; now left|exact G].
Qed.

(** The object is genuine if the signature refers to it: its Id must be the one
    that the reference is to. *)
Theorem C93_contents_partial : forall fingerprint_of checks num depth uri foreign expected genuine m s cache r cache' x object,
  unforgeable fingerprint_of checks expected genuine ->
  receive fingerprint_of checks num depth uri foreign expected m s cache = (Ok r, cache') ->
  read_expanded s = Some x -> envelope x object -> refers_to_object x object ->
  exists ts, genuine ts /\ In object ts.
Proof. intros fo ck num depth uri foreign expected genuine m s cache r cache' x object. apply contents. Qed.

(** No signature is accepted twice in documents with one timestamp and one
    nonce, if these are signed. *)
Theorem C93_once_partial : forall fingerprint_of checks num depth uri foreign expected h i j mi si mj sj xi xj ts ri rj,
  in_order (map fst h) -> fair (map fst h) -> (i < j)%nat ->
  nth_error h i = Some (mi, si) -> nth_error h j = Some (mj, sj) -> read_expanded si = Some xi -> read_expanded sj = Some xj ->
  stamped_once xi -> stamped_once xj ->
  nth_error (receive_all fingerprint_of checks num depth uri foreign expected h []) i = Some (Ok ri) ->
  nth_error (receive_all fingerprint_of checks num depth uri foreign expected h []) j = Some (Ok rj) ->
  signed_parts xi ts -> ~ signed_parts xj ts.
Proof. intros fo ck num depth uri foreign expected. apply once. Qed.

(** All that is read comes from the object. *)
Theorem C93_only_the_object_is_read : forall num depth s s' x x' object,
  read_expanded s = Some x -> read_expanded s' = Some x' -> envelope x object -> envelope x' object ->
  parse_message num depth s = parse_message num depth s'.
Proof. intros num depth s s' x x' object X X' E E'. now rewrite (parse_envelope num depth s x object X E), (parse_envelope num depth s' x' object X' E'). Qed.

(** The messages that create_message signs are of that form ... *)
Theorem C93_made_messages : forall now nonce rp d1 d2 value certificate object,
  create_replay_protect now nonce = Ok rp -> plain_object object -> xml_name object = in_oadr "oadrSignedObject" ->
  let x := signed_document d1 d2 value certificate rp object in
  envelope x object /\ refers_to_object x object /\ stamped_once x /\ signed_parts x [object; properties rp].
Proof.
  intros now nonce rp d1 d2 v c object R P N x. unfold create_replay_protect in R. destruct (datetimeformat now) as [t|]; [|discriminate R]. injection R as <-.
  split; [|split; [|split]].
  - exists [], (lf ++ lf), [signature d1 d2 v c (Elem (in_dsp "ReplayProtect") [("Id", "myid"); ("Target", "#mytarget")] "" [Elem (in_dsp "timestamp") [] t []; Elem (in_dsp "nonce") [] nonce []])].
    split; [reflexivity|]. split; [reflexivity|]. split; [constructor; [reflexivity|constructor]|exact N].
  - apply made_refers; assumption.
  - apply made_stamped; assumption.
  - exists (signed_info d1 d2), (plain_el "SignatureValue" v). split; [apply made_signature|]. apply made_parts; assumption.
Qed.
(** ... and who receives one, accepts it exactly if it was signed with the
    certificate that they expect, its contents have not been changed, it is at
    most five seconds old and has not been accepted before. *)
Theorem C93_made_messages_are_accepted_iff : forall now i nonce rp d1 d2 value certificate object fingerprint_of checks expected m cache,
  dt_denotes now i -> four_digit_utc_year i ->
  create_replay_protect now nonce = Ok rp -> plain_object object -> xml_name object = in_oadr "oadrSignedObject" -> certificate <> "" ->
  (fst (validate_xml_signature fingerprint_of checks m (Some expected) (signed_document d1 d2 value certificate rp object) cache) = Ok tt <->
   fingerprint_of (pem certificate) = Ok expected
   /\ checks (pem certificate) (signed_info d1 d2) (plain_el "SignatureValue" value) [object; properties rp] = true
   /\ (m_now m - 5000000 <= i)%Z /\ ~ In (i, nonce) cache).
Proof.
  intros now i nonce rp d1 d2 v c object fo ck expected m cache D Y R P N C. unfold create_replay_protect in R.
  destruct (C08_timestamp_round_trip now i D Y) as (s & u & F & PT & O & U). rewrite F in R. cbn [bind] in R. injection R as <-.
  apply made_accepted; [assumption|assumption|assumption|]. apply reads_as_iff. exists u. split; [exact PT|]. now apply denotes_instant in U.
Qed.

(** The certificate is the first one in the document, in PEM form; a document
    without one is not accepted. *)
Theorem C93_certificate : forall x pem, extract_pem_cert x = Ok pem <->
  exists e, first_named (in_ds "X509Certificate") x e /\ own_text e <> "" /\ in_pem_form (own_text e) pem.
Proof.
  intros x p. rewrite certificate_spec. split; [intros (e & t & F & <- & N & P); eauto|]. intros (e & F & N & P). exists e, (own_text e). auto.
Qed.
(** What is in a document that is accepted: the first signature has a SignedInfo
    with two references; each is an Id of an element of the document; the
    signature is one of these two. *)
Theorem C93_accepted_signature : forall fingerprint_of checks m expected x cache,
  fst (validate_xml_signature fingerprint_of checks m (Some expected) x cache) = Ok tt ->
  exists cert s info value r1 r2 i1 i2 p q, extract_pem_cert x = Ok cert /\ fingerprint_of cert = Ok expected
    /\ first_named (in_ds "Signature") x s /\ In info (children_of s) /\ xml_name info = in_ds "SignedInfo" /\ In value (children_of s) /\ xml_name value = in_ds "SignatureValue"
    /\ filter (fun y => xml_name y =? in_ds "Reference") (children_of info) = [r1; r2]
    /\ uri_of r1 = "#" ++ i1 /\ uri_of r2 = "#" ++ i2 /\ has_id i1 p /\ has_id i2 q /\ In p (x :: below x) /\ In q (x :: below x)
    /\ checks cert info value [p; q] = true.
Proof. apply accepted_form. Qed.

(** The VTN, which looks at the certificate before it calls
    validate_xml_signature, accepts what a VEN would accept. *)
Theorem C93_vtn_accepts_the_same : forall fingerprint_of checks m expected x cache,
  snd (authenticate_signature fingerprint_of checks m expected x cache) = snd (validate_xml_signature fingerprint_of checks m (Some expected) x cache)
  /\ (fst (authenticate_signature fingerprint_of checks m expected x cache) = Ok tt <-> fst (validate_xml_signature fingerprint_of checks m (Some expected) x cache) = Ok tt).
Proof. intros. apply server_same. Qed.

(** ** The claim is false: signed documents can be rearranged. *)
Fixpoint same (x y : xml) : bool :=
  match x, y with
  | Elem n a t cs, Elem n' a' t' cs' =>
    (n =? n') && (t =? t') && (if list_eq_dec (fun p q : string * string => ltac:(decide equality; apply string_dec)) a a' then true else false)
    && (fix all (l l' : list xml) : bool := match l, l' with [], [] => true | x :: l, y :: l' => same x y && all l l' | _, _ => false end) cs cs'
  end.
Lemma same_eq : forall x y, same x y = true -> x = y.
Proof.
  fix IH 1. intros [n a t cs] [n' a' t' cs']. cbn [same]. rewrite !andb_true_iff. intros [[[A B] C] D]. apply String.eqb_eq in A, B. destruct (list_eq_dec _ a a') as [->|]; [|discriminate C]. subst.
  f_equal. clear C. revert cs' D. induction cs as [|c cs IHcs]; intros [|c' cs'] D; try discriminate D; [reflexivity|]. apply andb_true_iff in D as [D1 D2]. f_equal; [now apply IH|now apply IHcs].
Qed.
Definition same_list (l l' : list xml) : bool := same (Elem "" [] "" l) (Elem "" [] "" l').
Lemma same_list_eq l l' : same_list l l' = true -> l = l'.
Proof. intros H. apply same_eq in H. now injection H. Qed.

(** A message as the VTN signs it: [key] comes after the certificate in the
    KeyInfo, [more] after the signed properties. *)
Definition replay_text (stamp nonce : string) : string := "<dsp:ReplayProtect><dsp:timestamp>" ++ stamp ++ "</dsp:timestamp><dsp:nonce>" ++ nonce ++ "</dsp:nonce></dsp:ReplayProtect>".
Definition object_text (id ven : string) : string := "<o:oadrSignedObject" ++ id ++ "><o:oadrRequestReregistration ei:schemaVersion=""2.0b""><ei:venID>" ++ ven ++ "</ei:venID></o:oadrRequestReregistration></o:oadrSignedObject>".
Definition document (key more object : string) : string :=
"<o:oadrPayload xmlns:o=""http://openadr.org/oadr-2.0b/2012/07"" xmlns:ei=""http://docs.oasis-open.org/ns/energyinterop/201110"" xmlns:ds=""http://www.w3.org/2000/09/xmldsig#"" xmlns:dsp=""http://openadr.org/oadr-2.0b/2012/07/xmldsig-properties"">
<ds:Signature><ds:SignedInfo><ds:CanonicalizationMethod Algorithm=""http://www.w3.org/TR/2001/REC-xml-c14n-20010315""/><ds:SignatureMethod Algorithm=""http://www.w3.org/2001/04/xmldsig-more#rsa-sha256""/><ds:Reference URI=""#oadrSignedObject""><ds:DigestMethod Algorithm=""http://www.w3.org/2001/04/xmlenc#sha256""/><ds:DigestValue>aaaa</ds:DigestValue></ds:Reference><ds:Reference URI=""#prop""><ds:DigestMethod Algorithm=""http://www.w3.org/2001/04/xmlenc#sha256""/><ds:DigestValue>bbbb</ds:DigestValue></ds:Reference></ds:SignedInfo><ds:SignatureValue>cccc</ds:SignatureValue><ds:KeyInfo><ds:X509Data><ds:X509Certificate>MIIC</ds:X509Certificate></ds:X509Data>" ++ key ++ "</ds:KeyInfo><ds:Object Id=""prop""><ds:SignatureProperties><ds:SignatureProperty Id=""myid"" Target=""#mytarget"">" ++ replay_text "2020-01-01T12:00:00.000000Z" "n1" ++ "</ds:SignatureProperty></ds:SignatureProperties></ds:Object>" ++ more ++ "</ds:Signature>
" ++ object ++ "
</o:oadrPayload>".
Definition its_id : string := " o:Id=""oadrSignedObject""".
Definition original : string := document "" "" (object_text its_id "ven1").
(** The signed object moves into the signature, where its Id is still found;
    another object takes its place. *)
Definition wrapped : string := document "" ("<ds:Object>" ++ object_text its_id "ven1" ++ "</ds:Object>") (object_text "" "ven2").
(** A new timestamp and a new nonce are put where they are found first, in a
    part of the signature that is not signed. *)
Definition restamped : string := document (replay_text "2020-01-01T13:00:00.000000Z" "n2") "" (object_text its_id "ven1").

(** What the schema of signatures (schema/oadr_xmldsig.xsd:9-17, 95-108 and
    176-184) says about the parts that differ: a signature is a SignedInfo, a
    SignatureValue, a KeyInfo and Objects of any contents; a KeyInfo ends with
    elements of other namespaces. *)
Definition signature_form (x : xml) : bool :=
  named (in_ds "Signature") x
  && match children_of x with
     | i :: v :: k :: objects => named (in_ds "SignedInfo") i && named (in_ds "SignatureValue") v && forallb (named (in_ds "Object")) objects
         && named (in_ds "KeyInfo") k && match children_of k with d :: others => named (in_ds "X509Data") d && forallb (named (in_dsp "ReplayProtect")) others | [] => false end
     | _ => false
     end.
Definition parts_of (s : string) : list xml :=
  match read_expanded s with
  | Some x => match signature_of x with Some (i, _) => match resolve_all x (references i) with Some ts => ts | None => [] end | None => [] end
  | None => []
  end.
Definition some_numbers : numbers := mk_numbers (fun _ => true) (fun _ => Raise ValueError) (fun _ => "").
Definition fingerprint (cert : string) : result string := if cert =? pem "MIIC" then Ok "aa:bb" else Ok "cc:dd".
(** The VTN signed the parts of the original, and nothing else. *)
Definition vtn_signed (cert : string) (info value : xml) (ts : list xml) : bool := same_list ts (parts_of original).
Definition genuine_parts (ts : list xml) : Prop := ts = parts_of original.
Lemma vtn_unforgeable : unforgeable fingerprint vtn_signed "aa:bb" genuine_parts.
Proof. intros c i v ts _ H. now apply same_list_eq. Qed.
Definition at_time (s : string) : Z := match parse_datetime s with Ok (Parsed t) => instant t | _ => 0%Z end.
Definition on_the_clock (s : string) : moment := {| m_now := at_time s; m_clk := fun _ => at_time s; m_shuffle := fun l => l |}.
Notation receive_here := (receive fingerprint vtn_signed some_numbers 12 (fun _ => true) signature_form "aa:bb").
Notation receive_all_here := (receive_all fingerprint vtn_signed some_numbers 12 (fun _ => true) signature_form "aa:bb").

Theorem C93_contents_refuted : ~ C93_full_contents.
Proof.
  intro H. destruct (receive_here (on_the_clock "2020-01-01T12:00:01Z") wrapped []) as [o cache] eqn:R.
  assert (O : o = Ok ("oadrRequestReregistration", [("ven_id", VStr "ven2")])) by (change o with (fst (o, cache)); rewrite <- R; vm_compute; reflexivity). subst o.
  destruct (read_expanded wrapped) as [x|] eqn:X; [|vm_compute in X; discriminate X].
  assert (E : exists object, envelope x object /\ existsb (same object) (parts_of original) = false).
  { vm_compute in X. injection X as <-. eexists. split; [|].
    - eexists _, _, [_]. split; [reflexivity|]. split; [reflexivity|]. split; [repeat constructor|reflexivity].
    - vm_compute. reflexivity. }
  destruct E as (object & E & N).
  destruct (H fingerprint vtn_signed some_numbers 12 (fun _ => true) signature_form "aa:bb" genuine_parts _ _ _ _ _ x object vtn_unforgeable R X E) as (ts & -> & I).
  assert (T : existsb (same object) (parts_of original) = true); [|congruence].
  apply existsb_exists. exists object. split; [exact I|]. clear. revert object. fix IH 1. intros [n a t cs]. cbn [same]. rewrite !String.eqb_refl. destruct (list_eq_dec _ a a); [|congruence].
  cbn [andb]. induction cs as [|c cs IHcs]; [reflexivity|]. now rewrite (IH c), IHcs.
Qed.

Definition history : list (moment * string) :=
  [(on_the_clock "2020-01-01T12:00:01Z", original); (on_the_clock "2020-01-01T12:00:02Z", original);
   (on_the_clock "2020-01-01T13:00:01Z", original); (on_the_clock "2020-01-01T13:00:02Z", restamped)].
Lemma history_in_order : in_order (map fst history).
Proof. cbn. repeat split; try (intros m' M i; repeat (destruct M as [<-|M]; [vm_compute; discriminate|]); destruct M); intros; vm_compute; discriminate. Qed.
Lemma history_fair : fair (map fst history).
Proof. intros m I l. cbn in I. repeat (destruct I as [<-|I]; [apply Permutation_refl|]). destruct I. Qed.

(** Replays of the document as it was are refused; the restamped one is not. *)
Example C93_example_history : receive_all_here history [] =
  [Ok ("oadrRequestReregistration", [("ven_id", VStr "ven1")]); Raise ValueError; Raise ValueError; Ok ("oadrRequestReregistration", [("ven_id", VStr "ven1")])].
Proof. vm_compute. reflexivity. Qed.
Theorem C93_once_refuted : ~ C93_full_once.
Proof.
  intro H. destruct (read_expanded original) as [x|] eqn:X; [|vm_compute in X; discriminate X]. destruct (read_expanded restamped) as [y|] eqn:Y; [|vm_compute in Y; discriminate Y].
  assert (SX : signed_parts x (parts_of original)) by (vm_compute in X; injection X as <-; eexists _, _; split; vm_compute; reflexivity).
  refine (H fingerprint vtn_signed some_numbers 12%nat (fun _ => true) signature_form "aa:bb" history 0%nat 3%nat _ _ _ _ x y _ _ _ history_in_order history_fair _ eq_refl eq_refl X Y _ _ SX _).
  - repeat constructor.
  - rewrite C93_example_history. reflexivity.
  - rewrite C93_example_history. reflexivity.
  - vm_compute in Y. injection Y as <-. eexists _, _. split; vm_compute; reflexivity.
Qed.

(** ** Instances *)
(** The document as it was signed meets the hypotheses of both partial
    theorems. *)
Example C93_example_original : exists x object, read_expanded original = Some x /\ envelope x object /\ refers_to_object x object /\ stamped_once x.
Proof.
  destruct (read_expanded original) as [x|] eqn:X; [|vm_compute in X; discriminate X]. vm_compute in X. injection X as <-. eexists _, _. split; [reflexivity|]. split; [|split].
  - eexists _, _, [_]. split; [reflexivity|]. split; [reflexivity|]. split; [repeat constructor|reflexivity].
  - split; [eexists _, _, _, _, _; split; [reflexivity|]; split; [now left|]; right; exists oadr_uri; reflexivity|]. eexists _, _. split; [vm_compute; reflexivity|now left].
  - eexists _, _, _. split; [eexists _, _; split; vm_compute; reflexivity|]. split; [vm_compute; reflexivity|]. split; [vm_compute; reflexivity|].
    split; (eexists; split; [right; now left|]; do 3 (eapply within_child; [now left|]); eapply within_child; [|constructor]; cbn; tauto).
Qed.
Example C93_example_certificate : match read_expanded original with Some x => extract_pem_cert x | None => Raise ValueError end =
  Ok ("-----BEGIN CERTIFICATE-----" ++ lf ++ "MIIC" ++ lf ++ "-----END CERTIFICATE-----" ++ lf).
Proof. vm_compute. reflexivity. Qed.
(** A message that create_message signed. *)
Definition a_time : datetime := mkdt 2020 1 1 12 0 0 0 0.
Definition an_object : xml := Elem (in_oadr "oadrSignedObject") [(in_oadr "Id", "oadrSignedObject")] "" [Elem (in_oadr "oadrPoll") [] "" [Elem (in_ei "venID") [] "ven1" []]].
Example C93_example_made : exists rp, create_replay_protect a_time "n1" = Ok rp /\ plain_object an_object
  /\ map (fun s => fst (validate_xml_signature fingerprint (fun _ _ _ ts => same_list ts [an_object; properties rp]) (on_the_clock s) (Some "aa:bb") (signed_document "aaaa" "bbbb" "cccc" "MIIC" rp an_object) []))
       ["2020-01-01T12:00:05Z"; "2020-01-01T12:00:06Z"] = [Ok tt; Raise ValueError].
Proof.
  eexists. split; [vm_compute; reflexivity|]. split.
  - split; [eexists _, _, _, _, _; split; [reflexivity|]; split; [now left|]; right; exists oadr_uri; reflexivity|]. split; [vm_compute; reflexivity|].
    intros y Y. cbn in Y. repeat (destruct Y as [<-|Y]; [repeat split; vm_compute; congruence|]). destruct Y.
  - vm_compute. reflexivity.
Qed.

Print Assumptions C93_signature_is_genuine.
Print Assumptions C93_contents_partial.
Print Assumptions C93_once_partial.
Print Assumptions C93_only_the_object_is_read.
Print Assumptions C93_made_messages.
Print Assumptions C93_made_messages_are_accepted_iff.
Print Assumptions C93_certificate.
Print Assumptions C93_accepted_signature.
Print Assumptions C93_vtn_accepts_the_same.
Print Assumptions C93_contents_refuted.
Print Assumptions C93_once_refuted.
