(** C88: a request of a VEN reaches the handler as the VEN meant it, and the
    answer reaches the VEN as the handler meant it. *)
From Coq Require Import ZArith String Ascii List Bool Lia.
From Verif.Base Require Import Result Dict PyStr.
From Verif.Model Require Import DateTime Text Measurements Normalize SchemaTypes Xml XmlParty XmlOpt XmlText Jinja Payloads PreflightDict ClientRequest VtnService Exchange.
From Verif.Spec Require Import MessageSpec PartySpec OptSpec XmlTextSpec WrittenSpec PayloadSpec PayloadsAnySpec AcceptedSpec VtnServiceSpec ExchangeSpec.
From Verif.Proofs Require Import ClientRequestProofs VtnServiceProofs ExchangeProofs SchemaSentProofs.
From Verif.Properties Require Import P_Async P_Messages P_XmlText P_Written P_Templates P_Schema.
Import ListNotations.
Local Open Scope string_scope.
Local Open Scope Z_scope.

(** What a VEN's message says is in the handler's payload as it was, and is
    printed as it was when the handler returns it. *)
Theorem C88_values_kept : forall decimals opaque d k, vget k (printed decimals opaque (received d)) = vget k d.
Proof. intros decimals opaque d k. rewrite printed_get, received_get. destruct (vget k d) as [v|]; [|reflexivity]. cbn [option_map]. now rewrite member_back. Qed.

Section Exchange.
Context (other : val -> string) (num : numbers) (depth : nat) (uri : string -> bool) (foreign : xml -> bool) (decimals : Z -> nat -> string) (opaque : nat -> val).
Notation world_of := (vtn_world other num depth uri foreign decimals opaque).
Notation exchange_ := (exchange other num depth uri foreign decimals opaque).

(** By the payload [p] of a message of the kind [t] the message [m] is meant
    and sent, after the preflight check and but for entries that do not
    matter; [cond] is what OpenADR demands of it (for [bare] see
    Spec/AcceptedSpec.v). *)
Definition conveys (bare : bool) (clock : nat -> datetime) (sign : string -> option string) (t : string) (p : vdict) (m : xml) (cond : Prop) : Prop :=
  exists p0 further texts names times q, demands (fun u => uri u = true) bare namespace t p0 m texts names times cond /\ sent foreign sign t p0 further texts names times /\ signs sign /\
    preflight_message clock t p = Ok q /\ same q (p0 ++ further)%list.

Lemma conveys_read bare clock sign t p m cond : conveys bare clock sign t p m cond ->
  exists text, write_message other clock sign t p = Ok text /\ parse_message num depth text = match parse_payload num depth m with Ok d => Ok (t, d) | Raise e => Raise e end.
Proof.
  intros (p0 & further & texts & names & times & q & D & S & G & Q & E). pose proof S as (B & NM & T & K & U & SL & SG).
  destruct (C84_round other sign namespace t p0 m texts names times further num depth (demands_meant _ _ _ _ _ _ _ _ _ _ D) B T) as (text & C & P); [| |exact U|exact G|].
  - eapply Forall_impl; [|exact K]. intros x I. now apply known_names.
  - eapply Forall_impl; [|exact K]. intros x I. now apply known_names.
  - exists text. split; [|exact P]. unfold write_message. rewrite Q. cbn [bind]. now rewrite (create_same other sign t _ _ E).
Qed.
Lemma conveys_passes clock sign t p m (cond : Prop) text : conveys false clock sign t p m cond -> cond -> write_message other clock sign t p = Ok text -> exists x, validate_xml_schema uri foreign text = Ok x.
Proof.
  intros (p0 & further & texts & names & times & q & D & S & G & Q & E) C W. destruct (C87_passes_partial uri foreign other sign t p0 m texts names times cond further D S C) as (text' & x & W' & V).
  exists x. unfold write_message in W. rewrite Q in W. cbn [bind] in W. rewrite (create_same other sign t _ _ E), W' in W. now injection W as <-.
Qed.
Lemma conveys_refused clock sign t p m (cond : Prop) text : conveys true clock sign t p m cond -> ~ cond -> write_message other clock sign t p = Ok text -> validate_xml_schema uri foreign text = Raise XMLSyntaxError.
Proof.
  intros (p0 & further & texts & names & times & q & D & S & G & Q & E) C W. destruct (C87_refused_partial uri foreign other sign t p0 m texts names times cond further D S C) as (text' & W' & V).
  unfold write_message in W. rewrite Q in W. cbn [bind] in W. rewrite (create_same other sign t _ _ E), W' in W. now injection W as <-.
Qed.

(** The VTN takes this message: it handles such messages, the message is for
    it, and from a VEN that is registered and, over TLS, is the one that it
    says. *)
Definition welcome (v : vtn) (n : connection) (t : string) (d : vdict) (text : string) : Prop :=
  In t (c_types (v_config v)) /\ t <> "oadrResponse" /\ for_us (v_config v) (received d) /\ registered_ven (v_config v) t (received d) /\
  (forall ven, n_secure n = true -> pget "ven_id" (received d) = Some ven -> has_lookup (v_config v) -> authentic (world_of v) (v_config v) (posted n text) text t ven).
(** The VEN trusts the VTN, and has the hooks that a client has. *)
Definition trusting (e : ven) : Prop := (exists adds, registered adds (e_hooks e)) /\ (e_signed e = true -> forall x, e_signature e x = Ok tt).
(** What client.py:1129-1133 needs of an answer. *)
Definition reportable (d : vdict) : Prop := forall c, code_of d = Some c -> c <> 200 -> described d = true.

(** A request: the payload [p] by which [m] is meant, with the contents [d],
    given to the handler as [q]. *)
Definition asks (applies : Prop -> Prop) (e : ven) (v : vtn) (n : connection) (t : string) (p d : vdict) (q : payload) : Prop :=
  exists m cond, conveys false (e_clock e) (e_sign e) t p m cond /\ applies cond /\ parse_payload num depth m = Ok d /\ unhindered v /\
    (forall text, write_message other (e_clock e) (e_sign e) t p = Ok text -> welcome v n t d text) /\ handed n t d q.
(** The answer to it: the handler gives [given], which means [m'] with the
    contents [d']. *)
Definition answers (bare : bool) (v : vtn) (t : string) (q : payload) (t' : string) (m' : xml) (cond' : Prop) : Prop :=
  exists h given, c_handle (v_config v) t q = Ok h /\ gives h t' given /\ has_lists t' given /\
    (forall a, completed_with v q given a -> conveys bare (v_clock v) (v_sign v) t' (printed decimals opaque a) m' cond').

(** [applies] is given what OpenADR demands of a message. *)
Definition C88_statement (applies : Prop -> Prop) : Prop := forall e v n t p d q t' m' cond' d',
  asks applies e v n t p d q -> answers false v t q t' m' cond' -> applies cond' -> parse_payload num depth m' = Ok d' -> trusting e -> reportable d' ->
    exchange_ e v n t p = ([Handled t q], Ok (RMessage _ t' d')).
(** Whatever they say to each other, it arrives. *)
Definition C88_full : Prop := C88_statement (fun _ => True).

Lemma write_lists v t p : has_lists t p -> write other num depth uri foreign decimals opaque v t p = write_message other (v_clock v) (v_sign v) t (printed decimals opaque p).
Proof.
  intros (E & R). unfold write, VtnService.create_message. cbn [world_of w_render]. destruct (String.eqb_spec t "oadrDistributeEvent") as [->|N1].
  - destruct (E eq_refl) as (x & X). unfold mem, pget in *. now rewrite X.
  - destruct (String.eqb_spec t "oadrRegisterReport") as [->|N2]; [|reflexivity]. destruct (R eq_refl) as (x & X). unfold mem, pget in *. now rewrite X.
Qed.
Lemma completed_lists v q given t a : completed_with v q given a -> has_lists t given -> has_lists t a.
Proof. intros (_ & _ & _ & _ & K) (E & R). split; intros T; [destruct (E T) as (x & X)|destruct (R T) as (x & X)]; exists x; now rewrite K. Qed.

(** Up to the handler, and what the VTN sends. *)
Lemma asked e v n t p d q h t' given : asks (fun cond => cond) e v n t p d q -> c_handle (v_config v) t q = Ok h -> gives h t' given -> has_lists t' given ->
  exists text a, write_message other (e_clock e) (e_sign e) t p = Ok text /\ completed_with v q given a /\ fst (handler (world_of v) (v_config v) (posted n text)) = [Handled t q] /\
    answered other num depth uri foreign decimals opaque v n text = match write_message other (v_clock v) (v_sign v) t' (printed decimals opaque a) with Ok s => (200, s) | Raise _ => (500, v_text v) end.
Proof.
  intros (m & cond & S & C & P & U & W & F) H G L. destruct (conveys_read _ _ _ _ _ _ _ S) as (text & T & R). destruct (conveys_passes _ _ _ _ _ _ _ S C T) as (x & X). rewrite P in R.
  destruct (W text T) as (IT & NR & FU & RV & AU). pose proof (posted_arrives other num depth uri foreign decimals opaque v n text x t d U X R) as AR.
  destruct (handled_answer other num depth uri foreign decimals opaque v n text t d q h t' given U AR NR FU RV AU F IT H G) as (a & CW & EF & AN).
  exists text, a. split; [exact T|]. split; [exact CW|]. split; [exact EF|]. unfold answered. rewrite AN, (write_lists v t' a) by (eapply completed_lists; eassumption).
  now destruct (write_message other (v_clock v) (v_sign v) t' (printed decimals opaque a)).
Qed.
Lemma not_empty text x : validate_xml_schema uri foreign text = Ok x -> String.eqb text "" = false.
Proof. intros V. destruct (String.eqb_spec text "") as [->|]; [|reflexivity]. vm_compute in V. discriminate V. Qed.

(** It arrives if it is as OpenADR demands. *)
Theorem C88_exchange_partial : C88_statement (fun cond => cond).
Proof.
  intros e v n t p d q t' m' cond' d' A (h & given & H & G & L & S) C P ((adds & R) & TR) RP. destruct (asked e v n t p d q h t' given A H G L) as (text & a & T & CW & EF & AN).
  destruct (conveys_read _ _ _ _ _ _ _ (S a CW)) as (s & Ws & Rs). destruct (conveys_passes _ _ _ _ _ _ _ (S a CW) C Ws) as (x & X). rewrite P in Rs. rewrite Ws in AN.
  unfold exchange. rewrite T, EF. f_equal. apply (C62_only_valid_messages_are_accepted _ _ _ _ adds _ _ _ _ _ R). exists s, x. cbn [ven_oracles decodes post body_empty validate_schema validate_signature parse response_code has_description].
  repeat split; [now rewrite AN|now apply not_empty with x|exact X|intros Sg; now apply TR|exact Rs|exact RP].
Qed.

Lemma failed_reply e v n text s : (exists adds, registered adds (e_hooks e)) -> answered other num depth uri foreign decimals opaque v n text = s ->
  fst s <> 200 \/ fst s = 200 /\ String.eqb (snd s) "" = false /\ (exists x, validate_xml_schema uri foreign (snd s) = Raise x) ->
  snd (perform_request _ _ _ (ven_oracles other num depth uri foreign decimals opaque e v n) (e_hooks e) (e_signed e) text) = Ok (RFailed _).
Proof.
  intros (adds & R) E. rewrite (perform_request_nf _ _ _ _ _ _ _ _ R). unfold request_nf. cbn [ven_oracles decodes post body_empty validate_schema]. rewrite E. destruct s as [c b]. cbn [fst snd].
  intros [N|(-> & B & x & X)].
  - apply Z.eqb_neq in N. now rewrite N.
  - rewrite B, X. reflexivity.
Qed.
Lemma refused_not_empty clock sign t p m cond text : conveys true clock sign t p m cond -> write_message other clock sign t p = Ok text -> String.eqb text "" = false.
Proof.
  intros S W. destruct (conveys_read _ _ _ _ _ _ _ S) as (text' & W' & R). rewrite W in W'. injection W' as <-. destruct (String.eqb_spec text "") as [->|]; [exfalso|reflexivity].
  destruct S as (p0 & further & texts & names & times & q & D & Se & G & Q & E). pose proof Se as (B & NM & T & K & U & SL & SG).
  unfold write_message in W. rewrite Q in W. cbn [bind] in W. rewrite C84_created in W. destruct (render_template _ _ _); [|discriminate W]. injection W as W. unfold create_text in W. discriminate W.
Qed.

(** A request that is not as OpenADR demands is sent nevertheless; the handler
    does not see it, and the VEN is told that something failed. *)
Theorem C88_request_refused : forall e v n t p m cond, conveys true (e_clock e) (e_sign e) t p m cond -> ~ cond -> unhindered v -> trusting e ->
  exchange_ e v n t p = ([], Ok (RFailed _)).
Proof.
  intros e v n t p m cond S C U (R & _). destruct (conveys_read _ _ _ _ _ _ _ S) as (text & T & _). pose proof (conveys_refused _ _ _ _ _ _ _ S C T) as X.
  pose proof (refused_text other num depth uri foreign decimals opaque v n text _ U X) as TB. unfold exchange. rewrite T. f_equal.
  - rewrite handler_effects. now rewrite TB.
  - eapply failed_reply; [exact R|reflexivity|]. left. unfold answered, handler. cbn [snd]. rewrite TB. cbn. rewrite U. cbn. discriminate.
Qed.

(** An answer that is not as OpenADR demands: the handler was called, and the
    VEN does not get it. *)
Theorem C88_answer_refused : forall e v n t p d q t' m' cond', asks (fun cond => cond) e v n t p d q -> answers true v t q t' m' cond' -> ~ cond' -> trusting e ->
  exchange_ e v n t p = ([Handled t q], Ok (RFailed _)).
Proof.
  intros e v n t p d q t' m' cond' A (h & given & H & G & L & S) C (R & _). destruct (asked e v n t p d q h t' given A H G L) as (text & a & T & CW & EF & AN).
  destruct (conveys_read _ _ _ _ _ _ _ (S a CW)) as (s & Ws & _). rewrite Ws in AN. unfold exchange. rewrite T, EF. f_equal. eapply failed_reply; [exact R|exact AN|]. right. cbn [fst snd].
  split; [reflexivity|]. split; [exact (refused_not_empty _ _ _ _ _ _ _ (S a CW) Ws)|]. eexists. exact (conveys_refused _ _ _ _ _ _ _ (S a CW) C Ws).
Qed.
(** The handler was called, but the answer cannot even be written. *)
Theorem C88_answer_unsendable : forall e v n t p d q h t' given, asks (fun cond => cond) e v n t p d q -> c_handle (v_config v) t q = Ok h -> gives h t' given -> has_lists t' given ->
  (forall a, completed_with v q given a -> exists x, preflight_message (v_clock v) t' (printed decimals opaque a) = Raise x) -> trusting e ->
  exchange_ e v n t p = ([Handled t q], Ok (RFailed _)).
Proof.
  intros e v n t p d q h t' given A H G L S (R & _). destruct (asked e v n t p d q h t' given A H G L) as (text & a & T & CW & EF & AN). destruct (S a CW) as (x & X).
  unfold write_message at 1 in AN. rewrite X in AN. cbn [bind] in AN. unfold exchange. rewrite T, EF. f_equal. eapply failed_reply; [exact R|exact AN|]. left. discriminate.
Qed.
End Exchange.
Print Assumptions C88_values_kept.
Print Assumptions C88_exchange_partial.
Print Assumptions C88_answer_unsendable.
Print Assumptions C88_request_refused.
Print Assumptions C88_answer_refused.
