(** C03-C06: requests to the VTN. *)
From Coq Require Import ZArith String List Bool Lia.
From Verif.Base Require Import Result Dict PyStr ListExtra.
From Verif.Model Require Import VtnService.
From Verif.Spec Require Import VtnServiceSpec.
From Verif.Proofs Require Import VtnServiceProofs.
Import ListNotations.
Local Open Scope string_scope.
Local Open Scope Z_scope.

(** ** Material for the examples: a VTN that knows ven1 (fingerprint AA) and
    has seen ven2 without registering it. *)
Definition ex_w (t : string) (p : payload) (signer : string) : world :=
  mk_w (fun b => if String.eqb b "garbage" then Raise XMLSyntaxError else Ok tt) (fun _ => Ok (t, p)) (fun _ => Ok signer) (fun _ => Ok tt) (fun _ => Ok tt)
    (fun t _ => Ok ("<" ++ t ++ "/>")) (fun _ => Ok tt) "id1".
Definition ex_lookup (n : nat) (v : member) : result (option (dict string scalar)) :=
  match v with
  | Val (SStr "ven1") => Ok (Some [("registration_id", SStr "reg1"); ("fingerprint", SStr "AA")])
  | Val (SStr "ven2") => Ok (Some [("registration_id", SNone)])
  | _ => Ok None
  end.
Definition ex_c (h : string -> payload -> result hresult) : config :=
  mk_cfg (SStr "vtn") (Some ex_lookup) None true ["oadrPoll"; "oadrRequestEvent"; "oadrCreatePartyRegistration"] h.
Definition ex_rq (ct body cert : string) : request := mk_rq ct (Ok body) true (Ok (Some cert)).
Definition ex_p (v : string) : payload := [("ven_id", Val (SStr v)); ("request_id", Val (SStr "r1"))].
Definition ex_ok : string -> payload -> result hresult := fun _ _ => Ok (HPair "oadrResponse" HNoPayload).

(** ** C03 *)
(** A handler is called with a message exactly when the message is whole, for
    this VTN, from a registered VEN and authenticated. *)
Theorem C03_handled_exactly : forall w cfg rq t q, In (Handled t q) (fst (handler w cfg rq)) <-> may_handle w cfg rq t q.
Proof. intros. apply handled_iff. Qed.

(** Over TLS nothing is handled without authentication. *)
Theorem C03_only_authenticated : forall w cfg rq body t p ven, arrives w rq body t p -> rq_secure rq = true -> pget "ven_id" p = Some ven -> has_lookup cfg ->
  fst (handler w cfg rq) <> [] ->
  exists fp, rq_cert rq = Ok (Some fp) /\ on_file cfg t ven fp /\
    (c_verify cfg = true -> w_signer w body = Ok fp /\ w_verify w body = Ok tt /\ w_replay w body = Ok tt).
Proof.
  intros w cfg rq body t p ven AR SEC V HL N. destruct (fst (handler w cfg rq)) as [|[t' q] l] eqn:E; [contradiction|].
  assert (I : In (Handled t' q) (fst (handler w cfg rq))) by (rewrite E; now left). apply handled_iff in I as (body' & p' & AR' & _ & _ & _ & HA & _).
  destruct AR as (_ & B & _ & _ & P), AR' as (_ & B' & _ & _ & P'). rewrite B in B'. injection B' as <-. rewrite P in P'. injection P' as <- <-. exact (HA ven SEC V HL).
Qed.

(** A message is handled at most once. *)
Theorem C03_at_most_once : forall w cfg rq, (length (fst (handler w cfg rq)) <= 1)%nat.
Proof. intros. apply handled_once. Qed.

(** A certificate other than the one on file does not get through, whatever
    the message says; with verification on, neither does a message signed with
    another certificate. *)
Theorem C03_impostor : forall w cfg rq body t p ven fp other, arrives w rq body t p -> rq_secure rq = true -> pget "ven_id" p = Some ven -> has_lookup cfg ->
  (forall fp', on_file cfg t ven fp' -> fp' = fp) -> other <> fp ->
  rq_cert rq = Ok (Some other) \/ c_verify cfg = true /\ w_signer w body = Ok other -> fst (handler w cfg rq) = [].
Proof.
  intros w cfg rq body t p ven fp other AR SEC V HL U N D. destruct (fst (handler w cfg rq)) as [|x l] eqn:E; [reflexivity|exfalso].
  destruct (C03_only_authenticated w cfg rq body t p ven AR SEC V HL) as (f & C & F & S); [rewrite E; discriminate|]. apply U in F. subst f.
  destruct D as [D|[D1 D2]]; [congruence|]. destruct (S D1) as [S1 _]. congruence.
Qed.

Example C03_example :
  fst (handler (ex_w "oadrPoll" (ex_p "ven1") "AA") (ex_c ex_ok) (ex_rq "application/xml" "<x/>" "AA")) = [Handled "oadrPoll" (ex_p "ven1")] /\
  fst (handler (ex_w "oadrPoll" (ex_p "ven1") "AA") (ex_c ex_ok) (ex_rq "application/xml" "<x/>" "BB")) = [] /\
  fst (handler (ex_w "oadrPoll" (ex_p "ven1") "BB") (ex_c ex_ok) (ex_rq "application/xml" "<x/>" "AA")) = [].
Proof. vm_compute. auto. Qed.
Print Assumptions C03_handled_exactly.
Print Assumptions C03_only_authenticated.
Print Assumptions C03_at_most_once.
Print Assumptions C03_impostor.

(** ** C04 *)
Definition C04_full : Prop := forall w cfg rq, sendable w -> no_http_errors w cfg rq ->
  let r := handler w cfg rq in
  In (http_status (snd r)) [200; 400; 403; 500] /\
  (~ xml_content rq -> http_status (snd r) = 400) /\
  (forall t q code description, may_handle w cfg rq t q -> c_handle cfg t q = Raise (ProtocolError code description) -> http_status (snd r) = 200).

(** The wrong content type is answered with 500. *)
Theorem C04_documented_refuted : ~ C04_full.
Proof.
  intros F. specialize (F (ex_w "oadrPoll" (ex_p "ven1") "AA") (ex_c ex_ok) (ex_rq "text/plain" "<x/>" "AA")).
  destruct F as (_ & H & _).
  - split; [intros; eexists; reflexivity|reflexivity].
  - unfold no_http_errors. assert (P : forall A (a : A), plain (Ok a)) by (intros A a s; discriminate).
    split. { intros b s. cbn. destruct (String.eqb b "garbage"); discriminate. } do 7 (split; [intros; apply P|]).
    split. { intros f n v H s. injection H as <-. unfold ex_lookup. repeat (discriminate || match goal with |- context [match ?x with _ => _ end] => destruct x end). }
    split; [discriminate|]. intros; apply P.
  - assert (N : ~ xml_content (ex_rq "text/plain" "<x/>" "AA")) by (intros [r E]; cbn in E; discriminate). specialize (H N). vm_compute in H. discriminate.
Qed.

(** Only the four statuses occur, unless the environment itself raises an
    HTTPError. *)
Theorem C04_statuses_partial : forall w cfg rq, no_http_errors w cfg rq -> In (http_status (snd (handler w cfg rq))) [200; 400; 403; 500].
Proof.
  intros w cfg rq P. pose proof (answer_status w (mtype (try_block w cfg rq)) _ (try_plain w cfg rq P)) as A. unfold handler. cbn [snd].
  destruct (answer _ _ _); [|exact A]. destruct (w_hook w "before_respond"); [exact A|]. simpl. auto.
Qed.

(** A message that does not fit the schema: nothing is handled and the status
    is that of the exception, 400 for XML that fails the schema. *)
Theorem C04_schema_partial : forall w cfg rq body e s, sendable w -> xml_content rq -> rq_body rq = Ok body -> w_hook w "before_parse" = Ok tt ->
  w_schema w body = Raise e -> status_for e = Some s -> fst (handler w cfg rq) = [] /\ http_status (snd (handler w cfg rq)) = s.
Proof.
  intros w cfg rq body e s S X B K E T. rewrite handler_effects, (handler_reply _ _ _ S), (bad_schema _ _ _ _ _ X B K E). split; [reflexivity|]. unfold lift. cbn [mtype ended].
  destruct e; cbn in T |- *; congruence.
Qed.

(** An exception from the handler gives the status of that exception. *)
Theorem C04_handler_raises_partial : forall w cfg rq t q e s, sendable w -> may_handle w cfg rq t q -> c_handle cfg t q = Raise e -> status_for e = Some s ->
  fst (handler w cfg rq) = [Handled t q] /\ http_status (snd (handler w cfg rq)) = s.
Proof.
  intros w cfg rq t q e s S M R T. split.
  { pose proof (proj2 (handled_iff _ _ _ _ _) M) as I. pose proof (handled_once w cfg rq) as L. destruct (fst (handler w cfg rq)) as [|x [|y l]]; [destruct I| |simpl in L; lia]. destruct I as [->|[]]. reflexivity. }
  destruct M as (body & p & AR & NR & HV & HN & HA & HF & HH & HT). apply add_fingerprint_iff in HF. destruct (handled_ended _ _ _ _ _ _ _ AR NR HV HN HA HF) as (E & M & _).
  rewrite (handler_reply _ _ _ S), E, M, (handle_message_raises _ _ _ _ _ HH HT R). cbn [bind]. destruct e; cbn in T |- *; congruence.
Qed.

(** A protocol error from the handler gives 200 and an oadrResponse with the
    error's code, except in answer to oadrRequestEvent. *)
Theorem C04_protocol_error_partial : forall w cfg rq t q code description, sendable w -> may_handle w cfg rq t q -> t <> "oadrRequestEvent" ->
  c_handle cfg t q = Raise (ProtocolError code description) ->
  exists text, snd (handler w cfg rq) = Reply 200 (Message "oadrResponse" [("response", Resp code description None)] text).
Proof.
  intros w cfg rq t q code description S M N R. destruct M as (body & p & AR & NR & HV & HN & HA & HF & HH & HT). apply add_fingerprint_iff in HF.
  destruct (handled_ended _ _ _ _ _ _ _ AR NR HV HN HA HF) as (E & M & _). rewrite (handler_reply _ _ _ S), E, M, (handle_message_raises _ _ _ _ _ HH HT R). cbn [bind answer].
  unfold error_response. apply String.eqb_neq in N. rewrite N. apply (send_ok w "oadrResponse"); [exact S|discriminate|discriminate].
Qed.

(** What happens instead: a protocol error in answer to oadrRequestEvent, and
    a wrong content type, are answered with HTTP 500. *)
Theorem C04_request_event_500_partial : forall w cfg rq q code description, sendable w -> may_handle w cfg rq "oadrRequestEvent" q ->
  c_handle cfg "oadrRequestEvent" q = Raise (ProtocolError code description) -> snd (handler w cfg rq) = Unhandled KeyError /\ http_status (snd (handler w cfg rq)) = 500.
Proof.
  intros w cfg rq q code description S M R. destruct M as (body & p & AR & NR & HV & HN & HA & HF & HH & HT). apply add_fingerprint_iff in HF.
  destruct (handled_ended _ _ _ _ _ _ _ AR NR HV HN HA HF) as (E & M & _). rewrite (handler_reply _ _ _ S), E, M, (handle_message_raises _ _ _ _ _ HH HT R). split; reflexivity.
Qed.
Theorem C04_content_type_500_partial : forall w cfg rq, sendable w -> ~ xml_content rq -> handler w cfg rq = ([], Reply 500 NoText).
Proof.
  intros w cfg rq S N. rewrite (surjective_pairing (handler w cfg rq)), handler_effects, (handler_reply _ _ _ S), (not_xml _ _ _ N). reflexivity.
Qed.

(** A hook that fails when the answer is there already: HTTP 500, and what was
    done is done. *)
Theorem C04_last_hook_partial : forall w cfg rq e, w_hook w "before_respond" = Raise e ->
  http_status (snd (handler w cfg rq)) = 500 /\ forall t q, In (Handled t q) (fst (handler w cfg rq)) <-> may_handle w cfg rq t q.
Proof.
  intros w cfg rq e H. split; [|intros; apply handled_iff]. unfold handler. cbn [snd]. rewrite H. now destruct (answer _ _ _).
Qed.
(** A lookup of fingerprints that fails: a ValueError is an authorisation error,
    another exception has its status. *)
Theorem C04_lookup_fails_partial : forall w cfg rq body t p ven con lookup e s, sendable w -> arrives w rq body t p -> t <> "oadrResponse" -> t <> "oadrRequestEvent" -> for_us cfg p ->
  registered_ven cfg t p -> rq_secure rq = true -> pget "ven_id" p = Some ven -> rq_cert rq = Ok (Some con) -> c_fp_lookup cfg = Some lookup -> lookup ven = Raise e -> status_for e = Some s ->
  fst (handler w cfg rq) = [] /\
  (e <> ValueError -> http_status (snd (handler w cfg rq)) = s) /\
  (e = ValueError -> exists text, snd (handler w cfg rq) = Reply 200 (Message "oadrResponse" [("response", Resp 463 "" None)] text)).
Proof.
  intros w cfg rq body t p ven con lookup e s S AR NR NE HV HN SEC V C L K T. apply check_ven_ok in HN as [n HN].
  assert (CS : check_sender w cfg n rq body p = match e with ValueError => Raise (ProtocolError 463 "") | e => Raise e end).
  { unfold check_sender, authenticate. rewrite V, SEC, L. unfold pget_none. rewrite V, C. cbn [bind]. rewrite K. cbn [bind]. destruct e; reflexivity. }
  rewrite handler_effects, (handler_reply _ _ _ S), (arrived _ cfg _ _ _ _ AR), after_mtype. destruct (after_ended w cfg rq body t p NR) as [E1 E2]. rewrite E1, E2.
  apply (check_vtn_ok cfg p tt) in HV. rewrite HV, cbind_lift_ok, HN, cbind_lift_ok, CS.
  assert (X : exists e', (match e with ValueError => Raise (ProtocolError 463 "") | e => @Raise unit e end) = Raise e' /\ (e <> ValueError -> e' = e) /\ (e = ValueError -> e' = ProtocolError 463 "")).
  { destruct e; eexists; (split; [reflexivity|]); split; intros; congruence. }
  destruct X as (e' & -> & X1 & X2). rewrite cbind_lift_raise. unfold lift. cbn [effects ended]. split; [reflexivity|]. split; intros H.
  - rewrite (X1 H). destruct e; cbn in T |- *; congruence.
  - rewrite (X2 H). cbn [answer]. unfold error_response. apply String.eqb_neq in NE. rewrite NE.
    destruct (send_ok w "oadrResponse" [("response", Resp 463 "" None)] S) as [text X]; [discriminate|discriminate|]. exists text. exact X.
Qed.
Definition ex_failing (e : exn) : config := mk_cfg (SStr "vtn") (Some ex_lookup) (Some (fun _ => Raise e)) true ["oadrPoll"] ex_ok.
Example C04_example_lookup :
  (snd (handler (ex_w "oadrPoll" (ex_p "ven1") "AA") (ex_failing KeyError) (ex_rq "application/xml" "<x/>" "AA")),
   snd (handler (ex_w "oadrPoll" (ex_p "ven1") "AA") (ex_failing ValueError) (ex_rq "application/xml" "<x/>" "AA")))
  = (Reply 500 NoText, Reply 200 (Message "oadrResponse" [("response", Resp 463 "" None)] "<oadrResponse/>")).
Proof. vm_compute. reflexivity. Qed.

(** A request that is refused has no effects. *)
Theorem C04_refused : forall w cfg rq, fst (handler w cfg rq) = [] <-> (forall t q, ~ may_handle w cfg rq t q).
Proof.
  intros w cfg rq. split.
  - intros E t q M. apply handled_iff in M. rewrite E in M. destruct M.
  - intros N. destruct (fst (handler w cfg rq)) as [|[t q] l] eqn:E; [reflexivity|]. elim (N t q). apply handled_iff. rewrite E. now left.
Qed.

Example C04_example :
  let st h ct b := http_status (snd (handler (ex_w "oadrPoll" (ex_p "ven1") "AA") (ex_c h) (ex_rq ct b "AA"))) in
  (st ex_ok "Application/XML; charset=utf-8" "<x/>", st ex_ok "application/xml" "garbage", st (fun _ _ => Raise FingerprintMismatch) "application/xml" "<x/>",
   st (fun _ _ => Raise (UserError 3)) "application/xml" "<x/>", st (fun _ _ => Raise (ProtocolError 461 "no")) "application/xml" "<x/>", st ex_ok "text/html" "<x/>")
  = (200, 400, 403, 500, 200, 500).
Proof. vm_compute. reflexivity. Qed.
Print Assumptions C04_documented_refuted.
Print Assumptions C04_statuses_partial.
Print Assumptions C04_schema_partial.
Print Assumptions C04_handler_raises_partial.
Print Assumptions C04_protocol_error_partial.
Print Assumptions C04_request_event_500_partial.
Print Assumptions C04_content_type_500_partial.
Print Assumptions C04_last_hook_partial.
Print Assumptions C04_lookup_fails_partial.
Print Assumptions C04_refused.

(** ** C05 *)
Definition not_registered (info : option (dict string scalar)) : Prop :=
  match info with None => True | Some i => get String.eqb "registration_id" i = None \/ get String.eqb "registration_id" i = Some SNone end.

Theorem C05_unknown_ven : forall w cfg rq body t p v lookup info, sendable w -> arrives w rq body t p -> t <> "oadrResponse" -> ~ opening t -> for_us cfg p ->
  pget "ven_id" p = Some (Val v) -> c_ven_lookup cfg = Some lookup -> lookup 0%nat (Val v) = Ok info -> not_registered info ->
  exists text, handler w cfg rq = ([], Reply 200 (Message "oadrRequestReregistration" [("ven_id", Val v)] text)).
Proof.
  intros w cfg rq body t p v lookup info S AR NR NO HV V L I U. rewrite (surjective_pairing (handler w cfg rq)), handler_effects, (handler_reply _ _ _ S), (arrived _ cfg _ _ _ _ AR), after_mtype.
  destruct (after_ended w cfg rq body t p NR) as [E1 E2]. rewrite E1, E2. apply (check_vtn_ok cfg p tt) in HV. rewrite HV, cbind_lift_ok.
  assert (CV : check_ven cfg t p = Raise (RequestReregistration v)).
  { unfold check_ven. pose proof (opening_iff t) as O. destruct (_ || _); [elim NO; now apply O|]. rewrite V, L, I. cbn [bind]. destruct info as [i|]; [|reflexivity]. destruct U as [U|U]; rewrite U; reflexivity. }
  rewrite CV, cbind_lift_raise. unfold lift. cbn [effects ended answer]. destruct (send_ok w "oadrRequestReregistration" [("ven_id", Val v)] S) as [s Q]; [discriminate|discriminate|]. exists s. now rewrite Q.
Qed.

(** The schema gives an oadrRequestEvent no vtnID. *)
Theorem C05_wrong_vtn : forall w cfg rq body t p, sendable w -> arrives w rq body t p -> t <> "oadrResponse" ->
  (t = "oadrRequestEvent" -> pget "vtn_id" p = None) -> ~ for_us cfg p ->
  exists text, handler w cfg rq = ([], Reply 200 (Message "oadrResponse" [("response", Resp 452 "" None)] text)).
Proof.
  intros w cfg rq body t p S AR NR SC NV. rewrite (surjective_pairing (handler w cfg rq)), handler_effects, (handler_reply _ _ _ S), (arrived _ cfg _ _ _ _ AR), after_mtype.
  destruct (after_ended w cfg rq body t p NR) as [E1 E2]. rewrite E1, E2, (check_vtn_fail _ _ NV), cbind_lift_raise. unfold lift. cbn [effects ended answer].
  unfold error_response. destruct (String.eqb t "oadrRequestEvent") eqn:Q; [apply String.eqb_eq in Q; elim NV; left; auto|].
  destruct (send_ok w "oadrResponse" [("response", Resp 452 "" None)] S) as [s X]; [discriminate|discriminate|]. exists s. now rewrite X.
Qed.

Example C05_example : forall v, In v ["ven2"; "ven3"] ->
  handler (ex_w "oadrPoll" (ex_p v) "AA") (ex_c ex_ok) (ex_rq "application/xml" "<x/>" "AA") = ([], Reply 200 (Message "oadrRequestReregistration" [("ven_id", Val (SStr v))] "<oadrRequestReregistration/>")).
Proof. intros v [<-|[<-|[]]]; vm_compute; reflexivity. Qed.
Example C05_example_vtn :
  handler (ex_w "oadrPoll" [("vtn_id", Val (SStr "other")); ("ven_id", Val (SStr "ven1"))] "AA") (ex_c ex_ok) (ex_rq "application/xml" "<x/>" "AA") = ([], Reply 200 (Message "oadrResponse" [("response", Resp 452 "" None)] "<oadrResponse/>")).
Proof. vm_compute. reflexivity. Qed.
Print Assumptions C05_unknown_ven.
Print Assumptions C05_wrong_vtn.

(** ** C06 *)
Definition C06_full : Prop := forall w cfg rq t q code description, sendable w -> may_handle w cfg rq t q -> c_handle cfg t q = Raise (ProtocolError code description) ->
  exists p text, snd (handler w cfg rq) = Reply 200 (Message (answer_to t) p text) /\ pget "response" p = Some (Resp code description (Some (pget_none "request_id" q))).

(** oadrCreatePartyRegistration's error comes as oadrResponse, and without the
    request's identifier. *)
Theorem C06_type_refuted : ~ C06_full.
Proof.
  intros F. set (p := [("request_id", Val (SStr "r1"))]). set (h := fun (_ : string) (_ : payload) => @Raise hresult (ProtocolError 461 "no")).
  destruct (F (ex_w "oadrCreatePartyRegistration" p "AA") (ex_c h) (mk_rq "application/xml" (Ok "<x/>") false (Ok None)) "oadrCreatePartyRegistration" p 461 "no") as (q & text & H & _).
  - split; [intros; eexists; reflexivity|reflexivity].
  - apply handled_iff. vm_compute. auto.
  - reflexivity.
  - vm_compute in H. discriminate.
Qed.

(** What holds: a protocol error from the handler is answered with an
    oadrResponse that carries code and description (C04_protocol_error_partial
    is the same from the side of HTTP), as is one from the sender's
    authentication; the request id is never there. *)
Theorem C06_protocol_error_partial : forall w cfg rq t q code description, sendable w -> may_handle w cfg rq t q -> t <> "oadrRequestEvent" ->
  c_handle cfg t q = Raise (ProtocolError code description) ->
  exists p text, snd (handler w cfg rq) = Reply 200 (Message "oadrResponse" p text) /\ pget "response" p = Some (Resp code description None) /\ pget "request_id" p = None.
Proof.
  intros w cfg rq t q code description S M N R. destruct (C04_protocol_error_partial _ _ _ _ _ _ _ S M N R) as [text E]. eexists. exists text. split; [exact E|]. split; reflexivity.
Qed.
Theorem C06_authentication_partial : forall w cfg rq body t p ven, sendable w -> arrives w rq body t p -> t <> "oadrResponse" -> t <> "oadrRequestEvent" -> for_us cfg p ->
  registered_ven cfg t p -> rq_secure rq = true -> pget "ven_id" p = Some ven -> has_lookup cfg ->
  rq_cert rq = Ok None \/ (exists con fp, rq_cert rq = Ok (Some con) /\ on_file cfg t ven fp /\ con <> fp) ->
  exists text, handler w cfg rq = ([], Reply 200 (Message "oadrResponse" [("response", Resp 463 "" None)] text)).
Proof.
  intros w cfg rq body t p ven S AR NR NE HV HN SEC V HL D. apply check_ven_ok in HN as [n HN]. rewrite (surjective_pairing (handler w cfg rq)), handler_effects, (handler_reply _ _ _ S), (arrived _ cfg _ _ _ _ AR), after_mtype.
  destruct (after_ended w cfg rq body t p NR) as [E1 E2]. rewrite E1, E2. apply (check_vtn_ok cfg p tt) in HV. rewrite HV, cbind_lift_ok, HN, cbind_lift_ok, (sender_refused _ _ _ _ _ _ _ _ HN SEC V HL D), cbind_lift_raise.
  unfold lift. cbn [effects ended answer]. unfold error_response. apply String.eqb_neq in NE. rewrite NE.
  destruct (send_ok w "oadrResponse" [("response", Resp 463 "" None)] S) as [s X]; [discriminate|discriminate|]. exists s. now rewrite X.
Qed.
Example C06_example_impostor : handler (ex_w "oadrPoll" (ex_p "ven1") "AA") (ex_c ex_ok) (ex_rq "application/xml" "<x/>" "BB") = ([], Reply 200 (Message "oadrResponse" [("response", Resp 463 "" None)] "<oadrResponse/>")).
Proof. vm_compute. reflexivity. Qed.

(** A message type that the endpoint does not support: code 459, with the
    identifiers of both parties. *)
Theorem C06_not_supported_partial : forall w cfg rq body t p, sendable w -> arrives w rq body t p -> t <> "oadrResponse" -> t <> "oadrCreatePartyRegistration" -> for_us cfg p -> registered_ven cfg t p ->
  (forall ven, rq_secure rq = true -> pget "ven_id" p = Some ven -> has_lookup cfg -> authentic w cfg rq body t ven) ->
  w_hook w "before_handle" = Ok tt -> w_hook w "after_handle" = Ok tt -> ~ In t (c_types cfg) ->
  exists text, handler w cfg rq = ([], Reply 200 (Message "oadrResponse" [("response", Resp 459 not_supported None); ("vtn_id", Val (c_vtn cfg)); ("ven_id", pget_none "ven_id" p)] text)).
Proof.
  intros w cfg rq body t p S AR NR NC HV HN HA H K NI. rewrite (surjective_pairing (handler w cfg rq)), handler_effects, (handler_reply _ _ _ S).
  assert (HF : add_fingerprint rq t p = Ok p) by (apply add_fingerprint_iff; right; split; [intros [_ X]; contradiction|reflexivity]).
  destruct (handled_ended _ _ _ _ _ _ _ AR NR HV HN HA HF) as (E & M & F). destruct (handle_message_unsupported w cfg t p H K NI) as [G1 G2]. rewrite E, M, F, G1, G2. cbn [bind fst snd answer].
  match goal with |- context [send w "oadrResponse" ?q] => destruct (send_ok w "oadrResponse" q S) as [s X]; [discriminate|discriminate|]; rewrite X end. exists s. reflexivity.
Qed.

Example C06_example :
  let r t := snd (handler (ex_w t (ex_p "ven1") "AA") (ex_c (fun _ _ => Raise (ProtocolError 461 "no"))) (ex_rq "application/xml" "<x/>" "AA")) in
  (r "oadrPoll", r "oadrRequestEvent", r "oadrCreateOpt") =
  (Reply 200 (Message "oadrResponse" [("response", Resp 461 "no" None)] "<oadrResponse/>"), Unhandled KeyError,
   Reply 200 (Message "oadrResponse" [("response", Resp 459 not_supported None); ("vtn_id", Val (SStr "vtn")); ("ven_id", Val (SStr "ven1"))] "<oadrResponse/>")).
Proof. vm_compute. reflexivity. Qed.
Print Assumptions C06_type_refuted.
Print Assumptions C06_protocol_error_partial.
Print Assumptions C06_authentication_partial.
Print Assumptions C06_not_supported_partial.

(** ** C68 *)
(** The full claim: the answer to a request that was handled refers to that
    request, names VTN and VEN, and carries what the handler gave. *)
Definition C68_full : Prop := forall w cfg rq t q h t' given, sendable w -> may_handle w cfg rq t q -> w_hook w "after_handle" = Ok tt -> c_handle cfg t q = Ok h ->
  gives h t' given -> has_lists t' given ->
  exists p s, snd (handler w cfg rq) = Reply 200 (Message t' p s) /\
    (forall k v, pget k given = Some v -> k <> "vtn_id" -> k <> "request_id" -> k <> "ven_id" -> pget k p = Some v).

(** It is false: a handler cannot report an error of its own, for its response
    is replaced with 200 OK. *)
Theorem C68_answer_refuted : ~ C68_full.
Proof.
  intros F. pose (given := [("response", Resp 452 "no such event" None)]).
  assert (M : may_handle (ex_w "oadrPoll" (ex_p "ven1") "AA") (ex_c (fun _ _ => Ok (HPair "oadrResponse" (HDict given)))) (ex_rq "application/xml" "<x/>" "AA") "oadrPoll" (ex_p "ven1")).
  { apply handled_iff. vm_compute. now left. }
  edestruct F as (p & s & R & K); [ |exact M|reflexivity|reflexivity|right; right; reflexivity|split; discriminate| ]; [split; [intros; cbn; eauto|reflexivity]|].
  specialize (K "response" _ eq_refl ltac:(discriminate) ltac:(discriminate) ltac:(discriminate)). vm_compute in R. injection R as <- <-. discriminate.
Qed.
Print Assumptions C68_answer_refuted.

(** All the rest holds: the answer says 200 OK to the number of the request,
    has a number of its own, is from this VTN, is addressed as [addressed]
    says, and carries every other member that the handler gave and no more. *)
Theorem C68_answer_partial : forall w cfg rq t q h t' given, sendable w -> may_handle w cfg rq t q -> w_hook w "after_handle" = Ok tt -> c_handle cfg t q = Ok h ->
  gives h t' given -> has_lists t' given ->
  exists p s v, snd (handler w cfg rq) = Reply 200 (Message t' p s) /\
    pget "response" p = Some (Resp 200 "OK" (Some (match pget "request_id" q with Some r => r | None => Val SNone end))) /\
    pget "request_id" p = Some (Val (SStr (w_id w))) /\ pget "vtn_id" p = Some (Val (c_vtn cfg)) /\
    pget "ven_id" p = Some v /\ addressed q given v /\
    (forall k, k <> "response" -> k <> "request_id" -> k <> "vtn_id" -> k <> "ven_id" -> pget k p = pget k given).
Proof.
  intros w cfg rq t q h t' given S (body & p0 & AR & NR & HV & HN & HA & HF & HH & HT) AH C G L.
  apply add_fingerprint_iff in HF. destruct (handled_ended w cfg rq t q body p0 AR NR HV HN HA HF) as (E & M & _).
  pose proof (completed w cfg t q h t' given G) as K. destruct (dressed_spec w cfg q given) as (K1 & K2 & K3 & K5 & K6).
  rewrite (handle_message_returns w cfg t q h _ HH AH HT C K) in E. cbn [bind fst snd] in E.
  destruct (finished cfg q _ _ _ K1 K3 eq_refl) as (F1 & F2 & F3).
  assert (L' : has_lists t' (finish cfg q (dressed w cfg q given))).
  { destruct L as [L1 L2]. split; intros Q; [destruct (L1 Q) as [x X]|destruct (L2 Q) as [x X]]; exists x; rewrite F3, K6 by discriminate; exact X. }
  destruct (send_lists w t' _ S L') as [s SE].
  eexists _, s, _. rewrite (handler_reply w cfg rq S), E, M. split; [exact SE|].
  rewrite F1, F2, !F3 by discriminate. split; [exact K1|]. split; [exact K2|]. split; [reflexivity|]. split; [reflexivity|]. split; [exact K5|].
  intros k N1 N2 N3 N4. rewrite F3 by assumption. apply K6; assumption.
Qed.
Print Assumptions C68_answer_partial.

(** A VEN that asks twice can tell the answers apart. *)
Example C68_example :
  snd (handler (ex_w "oadrPoll" (ex_p "ven1") "AA") (ex_c (fun _ _ => Ok (HPair "oadrX" (HDict [("ven_id", Val (SStr "")); ("x", Val (SInt 1))])))) (ex_rq "application/xml" "<x/>" "AA")) =
  Reply 200 (Message "oadrX" [("ven_id", Val (SStr "ven1")); ("x", Val (SInt 1)); ("vtn_id", Val (SStr "vtn")); ("response", Resp 200 "OK" (Some (Val (SStr "r1"))));
    ("request_id", Val (SStr "id1"))] "<oadrX/>").
Proof. vm_compute. reflexivity. Qed.
