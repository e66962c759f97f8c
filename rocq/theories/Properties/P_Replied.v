(** C99: a VTN takes every response to its events that the schema lets a VEN give. *)
From Coq Require Import ZArith String List Bool Lia.
From Verif.Base Require Import Result Dict PyStr.
From Verif.Model Require Import Text Normalize Xml XmlText Schema SchemaTypes Polled Replied.
From Verif.Model Require EventService.
From Verif.Spec Require Import TextSpec MessageSpec ReadableSpec PolledSpec RepliedSpec.
From Verif.Proofs Require Import TextProofs NormalizeProofs ReactionProofs RepliedProofs.
Import ListNotations.
Local Open Scope string_scope.

(** The calls of a handler for the responses of a message, one for each in their
    order, from the VEN of the message, with the id of the event as
    [by_id] has it and with what was chosen. *)
Definition calls_for (by_id : string -> val -> Prop) (ven : val) (rs : list xml) (calls : list call) : Prop :=
  Forall2 (fun r c => c_ven c = ven /\ (exists t, event_text r t /\ by_id t (c_event c)) /\ exists t, choice_text r t /\ (t = "optIn" \/ t = "optOut") /\ c_opt c = VStr t) rs calls.

(** Whatever oadrCreatedEvent the schema lets a VEN send, once it is parsed, the
    user's handler is called for each response in it, with the id of the event
    as it stands there, and no exception comes of it (if none comes of the
    handler). *)
Definition C99_full : Prop := forall num uri on depth s x object m p,
  read_expanded s = Some x -> envelope x object -> alone uri object -> parse_message num depth s = Ok ("oadrCreatedEvent", p) -> parts object = [m] -> (forall c, on c = Ok tt) ->
  exists ven calls, vget "ven_id" p = Some ven /\ created_external on p = (calls, Ok tt) /\ calls_for (fun t v => v = VStr t) ven (responses_in m) calls.

(** With at least one response, exactly: the handler gets them all; an id that is
    wordy as it stands, the others as something that is not a text. *)
Theorem C99_responses : forall num uri on depth s x object m p,
  read_expanded s = Some x -> envelope x object -> alone uri object -> parse_message num depth s = Ok ("oadrCreatedEvent", p) -> parts object = [m] -> (forall c, on c = Ok tt) ->
  responses_in m <> [] ->
  exists ven calls, vget "ven_id" p = Some ven /\ created_external on p = (calls, Ok tt) /\ calls_for understood ven (responses_in m) calls.
Proof.
  intros num uri on depth s x object m p RD EN AL PA PO ON NE. destruct (created_read uri num s x object depth p RD EN AL PA) as (m' & PM & [ven GV] & R). rewrite PO in PM. injection PM as <-.
  destruct R as [[R _]|(_ & l & GL & F)]; [contradiction|]. destruct (handed on ven _ l F ON) as (calls & H & K). exists ven, calls. split; [exact GV|]. split; [|exact K]. unfold created_external. now rewrite GV, GL.
Qed.
Print Assumptions C99_responses.

(** With a handler that may fail: it gets the responses up to the first at which
    it fails, and no further ones; the exception is the handler's. *)
Theorem C99_until_it_fails : forall num uri on depth s x object m p,
  read_expanded s = Some x -> envelope x object -> alone uri object -> parse_message num depth s = Ok ("oadrCreatedEvent", p) -> parts object = [m] -> responses_in m <> [] ->
  exists ven calls, vget "ven_id" p = Some ven /\ calls_for understood ven (responses_in m) calls
    /\ ((forall c, In c calls -> on c = Ok tt) -> created_external on p = (calls, Ok tt))
    /\ (forall before c after e, calls = (before ++ c :: after)%list -> (forall c', In c' before -> on c' = Ok tt) -> on c = Raise e -> created_external on p = ((before ++ [c])%list, Raise e)).
Proof.
  intros num uri on depth s x object m p RD EN AL PA PO NE. destruct (created_read uri num s x object depth p RD EN AL PA) as (m' & PM & [ven GV] & R). rewrite PO in PM. injection PM as <-.
  destruct R as [[R _]|(_ & l & GL & F)]; [contradiction|]. destruct (handed (fun _ => Ok tt) ven _ l F (fun _ => eq_refl)) as (calls & H & K). exists ven, calls. split; [exact GV|]. split; [exact K|].
  unfold created_external. rewrite GV, GL. cbn [each]. exact (handed_until on ven l calls H).
Qed.
Print Assumptions C99_until_it_fails.

(** So it holds if there is a response and the ids are wordy. *)
Theorem C99_taken_partial : forall num uri on depth s x object m p,
  read_expanded s = Some x -> envelope x object -> alone uri object -> parse_message num depth s = Ok ("oadrCreatedEvent", p) -> parts object = [m] -> (forall c, on c = Ok tt) ->
  responses_in m <> [] -> (forall r t, In r (responses_in m) -> event_text r t -> wordy t) ->
  exists ven calls, vget "ven_id" p = Some ven /\ created_external on p = (calls, Ok tt) /\ calls_for (fun t v => v = VStr t) ven (responses_in m) calls.
Proof.
  intros num uri on depth s x object m p RD EN AL PA PO ON NE W. destruct (C99_responses num uri on depth s x object m p RD EN AL PA PO ON NE) as (ven & calls & GV & H & K). exists ven, calls. split; [exact GV|]. split; [exact H|].
  clear - W K. unfold calls_for in *. induction K as [|r c rs calls (A & (t & E & U) & B) K IH]; constructor.
  - split; [exact A|]. split; [|exact B]. exists t. split; [exact E|]. apply U. apply (W r); [now left | exact E].
  - apply IH. intros r' t' I. apply W. now right.
Qed.
Print Assumptions C99_taken_partial.

(** Without a response there is an exception, whatever the handler. *)
Theorem C99_no_response : forall num uri on depth s x object m p,
  read_expanded s = Some x -> envelope x object -> alone uri object -> parse_message num depth s = Ok ("oadrCreatedEvent", p) -> parts object = [m] ->
  responses_in m = [] -> exists e, created_external on p = ([], Raise e) /\ responses_read p = Raise e /\ (e = KeyError \/ e = TypeError).
Proof.
  intros num uri on depth s x object m p RD EN AL PA PO NE. destruct (created_read uri num s x object depth p RD EN AL PA) as (m' & PM & [ven GV] & R). rewrite PO in PM. injection PM as <-.
  destruct R as [(_ & [G|G])|(NR & _)]; [| |contradiction]; unfold created_external, responses_read; rewrite GV, G; eexists; (split; [reflexivity|]); (split; [reflexivity | auto]).
Qed.
Print Assumptions C99_no_response.

(** With the events that the VTN keeps itself, under ids that are texts: the event
    of a response is found if and only if its id is wordy and an event of this
    id with the modification number of the response is there.  For an id that
    is not wordy, no event is found, whether it is there or not. *)
Theorem C99_lookup : forall num uri depth s x object m p,
  read_expanded s = Some x -> envelope x object -> alone uri object -> parse_message num depth s = Ok ("oadrCreatedEvent", p) -> parts object = [m] ->
  responses_in m <> [] ->
  exists l, responses_read p = Ok l /\ Forall2 (fun r v => exists id tn n, event_text r id /\ modification_text r tn /\ understood tn n
    /\ forall queue completed, (forall e, In e queue -> exists t, fst e = VStr t) -> (forall i, In i completed -> exists t, i = VStr t) ->
       (looked_up (Some queue) completed v = Ok tt <-> wordy id /\ In (VStr id, n) queue)
       /\ (~ wordy id -> looked_up (Some queue) completed v = Raise EventService.InvalidIdError)) (responses_in m) l.
Proof.
  intros num uri depth s x object m p RD EN AL PA PO NE. destruct (created_read uri num s x object depth p RD EN AL PA) as (m' & PM & [ven GV] & R). rewrite PO in PM. injection PM as <-.
  destruct R as [[R _]|(_ & l & GL & F)]; [contradiction|]. exists l. split; [unfold responses_read; now rewrite GL|]. clear - F.
  induction F as [|r v rs l (y & i & n & o & ti & tn & to & -> & GI & GN & GO & E1 & U1 & E2 & U2 & _) F IH]; constructor; [|exact IH].
  exists ti, tn, n. repeat (split; [assumption|]). intros queue completed HQ HC. unfold looked_up. cbn [item]. rewrite GI, GN, GO. cbn [bind].
  assert (NF : ~ wordy ti -> existsb (fun e => same (fst e) i && same (snd e) n) queue = false /\ existsb (same i) completed = false).
  { intros NW. destruct U1 as (_ & U1 & _). split.
    - destruct (existsb _ queue) eqn:X; [|reflexivity]. exfalso. apply existsb_exists in X as (e & J & X). apply andb_true_iff in X as [X _]. apply same_eq in X. destruct (HQ e J) as [t T]. apply (U1 NW t). congruence.
    - destruct (existsb _ completed) eqn:X; [|reflexivity]. exfalso. apply existsb_exists in X as (i' & J & X). apply same_eq in X. destruct (HC i' J) as [t T]. apply (U1 NW t). congruence. }
  split; [split|].
  - intros H. destruct (existsb (fun e => same (fst e) i && same (snd e) n) queue) eqn:X; [|destruct (existsb (same i) completed); discriminate H].
    assert (W : wordy ti). { destruct (existsb_exists (fun e => same (fst e) i && same (snd e) n) queue) as [XE _]. destruct (XE X) as (e & J & Y). apply andb_true_iff in Y as [Y _]. apply same_eq in Y. destruct (HQ e J) as [t T].
      destruct (dec_wordy ti) as [W|W]; [exact W|]. exfalso. destruct U1 as (_ & U1 & _). apply (U1 W t). congruence. }
    split; [exact W|]. apply existsb_exists in X as ([a b] & J & Y). cbn [fst snd] in Y. apply andb_true_iff in Y as [Y1 Y2]. apply same_eq in Y1, Y2. subst a b. destruct U1 as (U1 & _). now rewrite <- (U1 W).
  - intros [W J]. destruct U1 as (U1 & _). rewrite (U1 W). replace (existsb (fun e => same (fst e) (VStr ti) && same (snd e) n) queue) with true; [reflexivity|]. symmetry. apply existsb_exists. exists (VStr ti, n). split; [exact J|]. cbn [fst snd]. now rewrite !same_refl.
  - intros NW. destruct (NF NW) as [A B]. now rewrite A, B.
Qed.
Print Assumptions C99_lookup.

(** A VTN that has no list of events for the VEN, because it has not sent it any,
    gets an exception for each response, whether the event was completed or
    not. *)
Theorem C99_no_queue : forall num uri depth s x object m p,
  read_expanded s = Some x -> envelope x object -> alone uri object -> parse_message num depth s = Ok ("oadrCreatedEvent", p) -> parts object = [m] ->
  responses_in m <> [] -> exists l, responses_read p = Ok l /\ length l = length (responses_in m) /\ forall v completed, In v l -> looked_up None completed v = Raise KeyError.
Proof.
  intros num uri depth s x object m p RD EN AL PA PO NE. destruct (created_read uri num s x object depth p RD EN AL PA) as (m' & PM & [ven GV] & R). rewrite PO in PM. injection PM as <-.
  destruct R as [[R _]|(_ & l & GL & F)]; [contradiction|]. exists l. split; [unfold responses_read; now rewrite GL|]. clear - F.
  induction F as [|r v rs l (y & i & n & o & ti & tn & to & -> & GI & GN & GO & _) F [IL IH]]; [split; [reflexivity | intros ? ? []]|]. split; [cbn [length]; congruence|].
  intros w completed [<-|I]; [|now apply IH]. unfold looked_up. cbn [item]. now rewrite GI, GN, GO.
Qed.
Print Assumptions C99_no_queue.

(** ** Cases *)
Definition strict : numbers := mk_numbers (fun t => matches float_pattern t) (fun _ => Raise ValueError) (fun _ => "").
Definition response_text (id opt : string) : string :=
  "<ei:eventResponse><ei:responseCode>200</ei:responseCode><p:requestID>q1</p:requestID><ei:qualifiedEventID><ei:eventID>" ++ id ++ "</ei:eventID><ei:modificationNumber>2</ei:modificationNumber></ei:qualifiedEventID><ei:optType>" ++ opt ++ "</ei:optType></ei:eventResponse>".
Definition created_text (responses : string) : string :=
  "<o:oadrPayload xmlns:o=""http://openadr.org/oadr-2.0b/2012/07"" xmlns:ei=""http://docs.oasis-open.org/ns/energyinterop/201110"" xmlns:p=""http://docs.oasis-open.org/ns/energyinterop/201110/payloads""><o:oadrSignedObject><o:oadrCreatedEvent ei:schemaVersion=""2.0b""><p:eiCreatedEvent><ei:eiResponse><ei:responseCode>200</ei:responseCode><p:requestID>r1</p:requestID></ei:eiResponse>"
  ++ responses ++ "<ei:venID>ven1</ei:venID></p:eiCreatedEvent></o:oadrCreatedEvent></o:oadrSignedObject></o:oadrPayload>".
Definition responses_text (l : list (string * string)) : string := created_text ("<ei:eventResponses>" ++ String.concat "" (map (fun io => response_text (fst io) (snd io)) l) ++ "</ei:eventResponses>").
Definition is_valid (s : string) : bool := match validate_xml_schema (fun _ => true) (fun _ => false) s with Ok _ => true | Raise _ => false end.
Definition taken (s : string) : list call * result unit := match parse_message strict 12 s with Ok (_, p) => created_external (fun _ => Ok tt) p | Raise e => ([], Raise e) end.
Definition two : string := responses_text [("ev1", "optIn"); ("ev2", "optOut")].
Definition numeric : string := responses_text [("12", "optIn")].

Example C99_example_valid : map is_valid [two; numeric; responses_text []; created_text ""] = [true; true; true; true].
Proof. vm_compute. reflexivity. Qed.
Example C99_example_taken : map taken [two; numeric; responses_text []; created_text ""] =
  [([mk_call (VStr "ven1") (VStr "ev1") (VStr "optIn"); mk_call (VStr "ven1") (VStr "ev2") (VStr "optOut")], Ok tt); ([mk_call (VStr "ven1") (VInt 12) (VStr "optIn")], Ok tt); ([], Raise TypeError); ([], Raise KeyError)].
Proof. vm_compute. reflexivity. Qed.
Example C99_example_fails : (match parse_message strict 12 two with Ok (_, p) => created_external (fun c => if same (c_event c) (VStr "ev1") then Raise ValueError else Ok tt) p | Raise e => ([], Raise e) end)
  = ([mk_call (VStr "ven1") (VStr "ev1") (VStr "optIn")], Raise ValueError).
Proof. vm_compute. reflexivity. Qed.
Definition found (s : string) (queue : list (val * val)) : result (list (result unit)) := bind (parse_message strict 12 s) (fun '(_, p) => bind (responses_read p) (fun l => Ok (map (looked_up (Some queue) []) l))).
Example C99_example_lookup : (found two [(VStr "ev1", VInt 2); (VStr "ev2", VInt 1)], found numeric [(VStr "12", VInt 2)]) = (Ok [Ok tt; Raise EventService.InvalidIdError], Ok [Raise EventService.InvalidIdError]).
Proof. vm_compute. reflexivity. Qed.

(** The hypotheses of the theorems are met by these messages. *)
Definition meets (s : string) (H : xml -> Prop) : Prop := exists x object m p, read_expanded s = Some x /\ envelope x object /\ alone (fun _ => true) object /\ parse_message strict 12 s = Ok ("oadrCreatedEvent", p) /\ parts object = [m] /\ H m.
Ltac met := eexists; eexists; eexists; eexists; split; [vm_compute; reflexivity|]; split; [exists [], "", []; split; [reflexivity|]; split; [reflexivity|]; split; [constructor | reflexivity]|]; split; [vm_compute; reflexivity|]; split; [vm_compute; reflexivity|]; split; [reflexivity|].
Lemma wordy_by t : t <> "" -> t <> "true" -> t <> "false" -> looks_float t = false -> wordy t.
Proof. intros A B C D. repeat (split; [assumption|]). intros L. apply looks_float_spec in L. congruence. Qed.
Example C99_example_meets_two : meets two (fun m => responses_in m <> [] /\ forall r t, In r (responses_in m) -> event_text r t -> wordy t).
Proof.
  met. split; [vm_compute; discriminate|]. intros r t I (c & P & F). unfold stands_in in F. apply flattening_flatten in F. subst t. vm_compute in I. destruct I as [<-|[<-|[]]]; vm_compute in P; destruct P as [<-|[]]; apply wordy_by; vm_compute; congruence.
Qed.
Example C99_example_meets_numeric : meets numeric (fun m => responses_in m <> []).
Proof. met. vm_compute. discriminate. Qed.
Example C99_example_meets_none : meets (created_text "") (fun m => responses_in m = []) /\ meets (responses_text []) (fun m => responses_in m = []).
Proof. split; met; reflexivity. Qed.

Theorem C99_every_response_is_taken_refuted : ~ C99_full.
Proof.
  intro H. destruct C99_example_meets_none as [(x & object & m & p & RD & EN & AL & PA & PO & NO) _].
  destruct (H strict (fun _ => true) (fun _ => Ok tt) 12%nat _ x object m p RD EN AL PA PO (fun _ => eq_refl)) as (ven & calls & _ & C & _).
  destruct (C99_no_response strict (fun _ => true) (fun _ => Ok tt) 12%nat _ x object m p RD EN AL PA PO NO) as (e & E & _). rewrite E in C. discriminate C.
Qed.
Print Assumptions C99_every_response_is_taken_refuted.
(** Nor does it hold for messages with responses. *)
Theorem C99_numeric_id_refuted : ~ (forall num uri on depth s x object m p,
  read_expanded s = Some x -> envelope x object -> alone uri object -> parse_message num depth s = Ok ("oadrCreatedEvent", p) -> parts object = [m] -> (forall c, on c = Ok tt) -> responses_in m <> [] ->
  exists ven calls, vget "ven_id" p = Some ven /\ created_external on p = (calls, Ok tt) /\ calls_for (fun t v => v = VStr t) ven (responses_in m) calls).
Proof.
  intro H. destruct C99_example_meets_numeric as (x & object & m & p & RD & EN & AL & PA & PO & NO).
  destruct (H strict (fun _ => true) (fun _ => Ok tt) 12%nat _ x object m p RD EN AL PA PO (fun _ => eq_refl) NO) as (ven & calls & _ & C & F).
  vm_compute in PA. injection PA as <-. vm_compute in C. injection C as <-. inversion F as [|r c rs cs (_ & (t & _ & X) & _) _ E1 E2]; subst. discriminate X.
Qed.
Print Assumptions C99_numeric_id_refuted.
