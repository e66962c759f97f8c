(** Lemmas for C88: an exchange, step by step. *)
From Coq Require Import ZArith String Ascii List Bool Lia.
From Verif.Base Require Import Result Dict PyStr.
From Verif.Model Require Import Normalize Xml XmlText SchemaTypes Jinja ClientRequest VtnService Exchange.
From Verif.Spec Require Import VtnServiceSpec ExchangeSpec.
From Verif.Proofs Require Import VtnServiceProofs.
Import ListNotations.
Local Open Scope string_scope.
Local Open Scope Z_scope.

(** ** Rendering looks entries up, so only what is found matters *)
Lemma eval_same other c d e : same c d -> eval other c e = eval other d e.
Proof. intros S. induction e; cbn [eval]; try rewrite IHe; try rewrite IHe1, IHe2; try reflexivity. now rewrite S. Qed.
Lemma loop_same c d x i v : same c d -> same (in_loop c x i v) (in_loop d x i v).
Proof. intros S k. specialize (S k). unfold vget, in_loop in *. cbn [get]. now rewrite S. Qed.
Lemma joined_same {A} (f g : A -> result string) l : (forall a, In a l -> f a = g a) -> joined f l = joined g l.
Proof. induction l as [|a l IH]; intros H; [reflexivity|]. cbn [joined]. rewrite (H a) by now left. destruct (g a); cbn [bind]; [|reflexivity]. rewrite IH; [reflexivity|]. intros b I. apply H. now right. Qed.
Lemma counted_same {A} (f g : nat -> A -> result string) l : (forall i a, f i a = g i a) -> forall i, counted f i l = counted g i l.
Proof. intros H. induction l as [|a l IH]; intros i; [reflexivity|]. cbn [counted]. rewrite H. destruct (g i a); cbn [bind]; [|reflexivity]. now rewrite IH. Qed.
Lemma render_same other : forall n c d, same c d -> render other n c = render other n d.
Proof.
  fix IH 1. intros [s|e|e a b|x e body|[body|]] c d S; cbn [render]; try reflexivity.
  - now rewrite (eval_same other c d e S).
  - rewrite (eval_same other c d e S). destruct (eval other d e) as [v|]; [|reflexivity]. cbn [bind]. destruct (truth v).
    + clear b. induction a as [|n a IHa]; [reflexivity|]. cbn [joined]. rewrite (IH n c d S). destruct (render other n d); [|reflexivity]. cbn [bind]. now rewrite IHa.
    + clear a. induction b as [|n b IHb]; [reflexivity|]. cbn [joined]. rewrite (IH n c d S). destruct (render other n d); [|reflexivity]. cbn [bind]. now rewrite IHb.
  - rewrite (eval_same other c d e S). destruct (eval other d e) as [v|]; [|reflexivity]. cbn [bind]. destruct (iterate v) as [l|]; [|reflexivity]. cbn [bind]. apply counted_same. intros i v0.
    pose proof (loop_same c d x i v0 S) as S'. induction body as [|n body IHb]; [reflexivity|]. cbn [joined]. rewrite (IH n _ _ S'). destruct (render other n (in_loop d x i v0)); [|reflexivity]. cbn [bind]. now rewrite IHb.
  - induction body as [|n body IHb]; [reflexivity|]. cbn [joined]. rewrite (IH n c d S). destruct (render other n d); [|reflexivity]. cbn [bind]. now rewrite IHb.
Qed.
Lemma create_same other sign t c d : same c d -> Jinja.create_message other sign t c = Jinja.create_message other sign t d.
Proof.
  intros S. unfold Jinja.create_message. assert (E : render_template other (t ++ ".xml") c = render_template other (t ++ ".xml") d); [|now rewrite E].
  unfold render_template. destruct (get_template _) as [ns|]; [|reflexivity]. unfold render_all. apply joined_same. intros n _. now apply render_same.
Qed.

(** ** Payloads and members *)
Lemma received_get k d : pget k (received d) = option_map val_member (vget k d).
Proof.
  unfold pget, vget, received. induction d as [|[k' v] d IH]; [reflexivity|]. cbn [map get fst snd]. destruct (String.eqb k k'); [reflexivity|exact IH].
Qed.
Lemma printed_get decimals opaque k p : vget k (printed decimals opaque p) = option_map (member_val decimals opaque) (pget k p).
Proof.
  unfold pget, vget, printed. induction p as [|[k' v] p IH]; [reflexivity|]. cbn [map get fst snd]. destruct (String.eqb k k'); [reflexivity|exact IH].
Qed.
Lemma member_back decimals opaque v : member_val decimals opaque (val_member v) = v.
Proof. destruct v; reflexivity. Qed.

(** ** The VTN's side *)
Section Vtn.
Context (other : val -> string) (num : numbers) (depth : nat) (uri : string -> bool) (foreign : xml -> bool) (decimals : Z -> nat -> string) (opaque : nat -> val).
Notation world_of := (vtn_world other num depth uri foreign decimals opaque).

Lemma xml_posted n text : xml_content (posted n text).
Proof. now exists "". Qed.
Lemma posted_arrives v n text x t d : unhindered v -> validate_xml_schema uri foreign text = Ok x -> parse_message num depth text = Ok (t, d) ->
  arrives (world_of v) (posted n text) text t (received d).
Proof.
  intros H V P. split; [apply xml_posted|]. split; [reflexivity|]. split; [apply H|]. cbn [world_of w_schema w_parse]. rewrite V, P. split; reflexivity.
Qed.
Lemma refused_text v n text e : unhindered v -> validate_xml_schema uri foreign text = Raise e ->
  try_block (world_of v) (v_config v) (posted n text) = lift (Raise e).
Proof. intros H V. eapply bad_schema; [apply xml_posted|reflexivity|apply H|]. cbn [world_of w_schema]. now rewrite V. Qed.

(** The text of the answer. *)
Definition write (v : vtn) (t : string) (p : payload) : result string := create_message (world_of v) t p.
Lemma handled_answer v n text t d q h t' given : unhindered v -> arrives (world_of v) (posted n text) text t (received d) -> t <> "oadrResponse" ->
  for_us (v_config v) (received d) -> registered_ven (v_config v) t (received d) ->
  (forall ven, n_secure n = true -> pget "ven_id" (received d) = Some ven -> has_lookup (v_config v) -> authentic (world_of v) (v_config v) (posted n text) text t ven) ->
  handed n t d q -> In t (c_types (v_config v)) -> c_handle (v_config v) t q = Ok h -> gives h t' given ->
  exists p, completed_with v q given p /\ fst (handler (world_of v) (v_config v) (posted n text)) = [Handled t q] /\
    snd (handler (world_of v) (v_config v) (posted n text)) = match write v t' p with Ok s => Reply 200 (Message t' p s) | Raise e => Unhandled e end.
Proof.
  intros H AR NR HV HN HA HF HT C G. set (w := world_of v) in *. set (cfg := v_config v) in *. set (rq := posted n text) in *.
  assert (AF : add_fingerprint rq t (received d) = Ok q) by (apply add_fingerprint_iff; exact HF).
  destruct (handled_ended w cfg rq t q text (received d) AR NR HV HN HA AF) as (E & M & EF).
  pose proof (completed w cfg t q h t' given G) as K. destruct (dressed_spec w cfg q given) as (K1 & K2 & K3 & K5 & K6).
  rewrite (handle_message_returns w cfg t q h _ (H _) (H _) HT C K) in E. cbn [bind fst snd] in E.
  destruct (finished cfg q _ _ _ K1 K3 eq_refl) as (F1 & F2 & F3). exists (finish cfg q (dressed w cfg q given)). split; [|split].
  - split; [rewrite F3 by discriminate; exact K1|]. split; [rewrite F3 by discriminate; exact K2|]. split; [exact F2|]. split; [eexists; split; [exact F1|exact K5]|].
    intros k N1 N2 N3 N4. rewrite F3 by assumption. now apply K6.
  - rewrite handler_effects, EF. unfold handle_message. rewrite (H _ : w_hook w "before_handle" = Ok tt), cbind_lift_ok. apply in_types in HT. rewrite HT. unfold cbind, lift. cbn [ended]. rewrite C. cbn [ended effects]. rewrite K. cbn [ended effects].
    rewrite (H _ : w_hook w "after_handle" = Ok tt). reflexivity.
  - unfold handler. cbn [snd]. rewrite M, E. cbn [answer]. unfold send, write. fold w. destruct (create_message w t' _); [|reflexivity]. now rewrite (H _ : w_hook w "before_respond" = Ok tt).
Qed.
End Vtn.
