(** Lemmas for C84: every payload is rendered as the message that is meant. *)
From Coq Require Import ZArith String Ascii List Bool Lia.
From Verif.Base Require Import Result Dict PyStr ListExtra.
From Verif.Model Require Import Text Duration DateTime Normalize Xml XmlParty XmlOpt XmlText Jinja Payloads.
From Verif.Spec Require Import TextSpec XmlTextSpec MessageSpec WrittenSpec PayloadSpec.
From Verif.Proofs Require Import TextProofs XmlTextProofs NormalizeProofs TemplateProofs PayloadProofs.
Import ListNotations.
Local Open Scope string_scope.

Lemma no_time u : parse_datetime "" <> Ok (Parsed u).
Proof. assert (E : parse_datetime "" = Ok (Unparsed "")) by (vm_compute; reflexivity). rewrite E. discriminate. Qed.
Lemma unprintable t e : datetimeformat t = Raise e -> show_time t = "".
Proof. intros E. unfold show_time. now rewrite E. Qed.
Lemma good_printable t : good_time t -> printable t.
Proof.
  intros G. destruct (good_time_read t G) as (_ & u & i & P & _). destruct (datetimeformat t) as [s|e] eqn:E; [now exists s|].
  rewrite (unprintable t e E) in P. destruct (no_time u P).
Qed.

(** ** The stated conditions are those of the lemmas *)
Lemma maybe_all {A} (P : A -> Prop) o : Forall P (maybe o) -> match o with Some a => P a | None => True end.
Proof. destruct o; intros H; [now inversion H|exact I]. Qed.
Lemma flat_all {A B} (P : B -> Prop) (f : A -> list B) l : Forall P (flat_map f l) -> Forall (fun a => Forall P (f a)) l.
Proof. rewrite !Forall_forall. intros H a I. apply Forall_forall. intros b J. apply H. apply in_flat_map. eauto. Qed.
Lemma map_all {A B} (P : B -> Prop) (f : A -> B) l : Forall P (map f l) -> Forall (fun a => P (f a)) l.
Proof. rewrite !Forall_forall. intros H a I. apply H. now apply in_map. Qed.
Lemma both_all {A} (P Q R : A -> Prop) l : Forall P l -> Forall Q l -> (forall a, P a -> Q a -> R a) -> Forall R l.
Proof. rewrite !Forall_forall. eauto. Qed.

Section Conditions.
Variable ns : string -> string.
Definition named (n : string) : Prop := nameb n = true /\ existsb (String.eqb (ns n)) prefixes = true.
Lemma measurement_ok o : Forall named (measurement_names o) -> match o with Some m => measurement_named ns m | None => True end.
Proof. destruct o; intros H; [now inversion H|exact I]. Qed.
Lemma signal_ok s : Forall printable (signal_times s) -> Forall named (measurement_names (s_measurement s)) -> signal_fine ns s.
Proof.
  intros T N. split; [|now apply measurement_ok]. apply flat_all in T. eapply Forall_impl; [|exact T]. intros i. apply maybe_all.
Qed.
Lemma event_ok e : Forall printable (event_times e) -> Forall named (event_names e) -> event_fine ns e.
Proof.
  intros T N. unfold event_times in T. rewrite Forall_app in T. destruct T as [T1 T]. inversion T as [|? ? T2 T']; subst. inversion T' as [|? ? T3 T4]; subst.
  split; [split; [now apply maybe_all|exact T2]|]. split; [exact T3|]. eapply both_all; [exact (flat_all _ _ _ T4)|exact (flat_all _ _ _ N)|]. apply signal_ok.
Qed.
Lemma offer_ok o : printable (of_created o) -> Forall named (offer_names o) -> offer_fine ns o.
Proof. intros T N. split; [exact T|]. eapply Forall_impl; [|exact (flat_all _ _ _ N)]. intros d. apply measurement_ok. Qed.
Lemma report_ok r : Forall printable (report_times r) -> report_printable r.
Proof.
  intros T. unfold report_times in T. rewrite !Forall_app in T. destruct T as (T1 & T2 & T3). split; [now apply maybe_all|]. split; [now apply map_all in T2|now inversion T3].
Qed.
Lemma request_ok r : Forall printable (request_times r) -> request_printable r.
Proof. intros T. apply map_all in T. unfold request_printable. now apply maybe_all in T. Qed.
Lemma opt_ok o : Forall printable (opt_times o) -> opt_printable o.
Proof. intros T. inversion T as [|? ? T1 T2]; subst. split; [exact T1|]. destruct (om_availability o); [|exact I]. now apply map_all in T2. Qed.

(** ** Which keys a payload has *)
Lemma get_app k (a b : vdict) : get String.eqb k (a ++ b)%list = match get String.eqb k a with Some v => Some v | None => get String.eqb k b end.
Proof. induction a as [|[k' v] a IH]; [reflexivity|]. cbn [get app]. destruct (String.eqb k k'); [reflexivity|exact IH]. Qed.

Ltac keyed B := rewrite !get_app; unfold given, option_map in *; repeat match goal with |- context [match ?o with Some _ => _ | None => _ end] => is_var o; destruct o end; cbn; try reflexivity.

Lemma meant_trees other n p m texts names times further : meant ns n p m texts names times -> beside n p further -> Forall printable times -> Forall named names ->
  trees other (items_of (n ++ ".xml")) (p ++ further)%list = Good [signed_object_xml m].
Proof.
  intros M B T N. unfold beside in B. destruct M; cbn [optional_keys] in B; cbn [String.append].
  - apply (distribute_event_tree other _ ns).
    + unfold may_have. destruct r; cbn [option_map]; [reflexivity|]. left. rewrite get_app, B; [now destruct q|now left|now destruct q].
    + unfold prints. destruct q; cbn [option_map]; [now destruct r|]. rewrite get_app, B; [now destruct r|right; now left|now destruct r].
    + now destruct r, q.
    + now destruct r, q.
    + eapply both_all; [exact (flat_all _ _ _ T)|exact (flat_all _ _ _ N)|]. apply event_ok.
  - apply created_event_tree.
  - apply (update_report_tree other).
    + reflexivity.
    + reflexivity.
    + unfold may_have. destruct v; cbn [option_map]; [reflexivity|]. left. rewrite get_app, B; [reflexivity|now left|reflexivity].
    + apply flat_all in T. eapply Forall_impl; [|exact T]. apply report_ok.
  - apply poll_tree.
  - apply create_party_tree.
  - apply (created_party_tree other); try reflexivity; unfold may_have.
    + destruct (cp_ven_id c) eqn:E; cbn [option_map]; [unfold created_party_payload; now rewrite E|]. left.
      rewrite get_app, B; [|now left|]; unfold created_party_payload; rewrite E; now destruct (cp_registration_id c), (cp_poll_freq c).
    + destruct (cp_registration_id c) eqn:E; cbn [option_map]; [unfold created_party_payload; rewrite E; now destruct (cp_ven_id c)|]. left.
      rewrite get_app, B; [|right; now left|]; unfold created_party_payload; rewrite E; now destruct (cp_ven_id c), (cp_poll_freq c).
    + destruct (cp_poll_freq c) eqn:E; cbn [option_map]; [unfold created_party_payload; rewrite E; now destruct (cp_ven_id c), (cp_registration_id c)|]. left.
      rewrite get_app, B; [|right; right; now left|]; unfold created_party_payload; rewrite E; now destruct (cp_ven_id c), (cp_registration_id c).
  - apply cancel_party_tree.
  - apply canceled_party_tree.
  - apply query_tree.
  - apply reregistration_tree.
  - apply (register_report_tree other _ ns).
    + reflexivity.
    + reflexivity.
    + unfold may_have. destruct v; cbn [option_map]; [reflexivity|]. left. rewrite get_app, B; [reflexivity|now left|reflexivity].
    + eapply both_all; [exact (map_all _ _ _ T)|exact (flat_all _ _ _ N)|]. apply offer_ok.
  - apply (registered_report_tree other).
    + reflexivity.
    + reflexivity.
    + unfold may_have. destruct v; cbn [option_map]; [reflexivity|]. left. rewrite get_app, B; [reflexivity|now left|reflexivity].
    + apply flat_all in T. eapply Forall_impl; [|exact T]. apply request_ok.
  - apply (create_report_tree other); try reflexivity. apply flat_all in T. eapply Forall_impl; [|exact T]. apply request_ok.
  - refine (proj1 (pending_reports_tree other _ r _ v _ _ _)); [reflexivity| |].
    + unfold pending. destruct ids; cbn [or_nil]; [left; reflexivity|]. right. split; [reflexivity|]. rewrite get_app, B; [now destruct v|now left|now destruct v].
    + unfold may_have. destruct v; cbn [option_map]; [now destruct ids|]. left. rewrite get_app, B; [now destruct ids|right; now left|now destruct ids].
  - refine (proj2 (pending_reports_tree other _ r _ v _ _ _)); [reflexivity| |].
    + unfold pending. destruct ids; cbn [or_nil]; [left; reflexivity|]. right. split; [reflexivity|]. rewrite get_app, B; [now destruct v|now left|now destruct v].
    + unfold may_have. destruct v; cbn [option_map]; [now destruct ids|]. left. rewrite get_app, B; [now destruct ids|right; now left|now destruct ids].
  - apply response_tree.
  - apply request_event_tree.
  - apply cancel_report_tree.
  - apply (updated_report_tree other); [reflexivity| |].
    + unfold may_have. destruct c; cbn [option_map]; [reflexivity|]. left. rewrite get_app, B; [now destruct v|now left|now destruct v].
    + unfold may_have. destruct v; cbn [option_map]; [now destruct c|]. left. rewrite get_app, B; [now destruct c|right; now left|now destruct c].
  - apply (create_opt_tree other further); [reflexivity|now apply opt_ok].
  - exact (proj1 (opt_answers_tree other further r i)).
  - exact (proj2 (opt_answers_tree other further r i)).
  - apply cancel_opt_tree. apply B; [now left|reflexivity].
Qed.
End Conditions.

Lemma meant_sendable ns n p m texts names times : meant ns n p m texts names times -> sendable n m texts names.
Proof. destruct 1; constructor. Qed.

(** ** The envelope *)
Lemma payload_rendered other kind signature s :
  render_template other "oadrPayload.xml" [("template", VStr kind); ("signature", match signature with Some t => VStr t | None => VNone end); ("signed_object", VStr s)]
  = Ok (envelope (match signature with Some t => t | None => "" end) s).
Proof.
  unfold render_template. 
  match goal with |- match ?g with _ => _ end = _ => let t := eval vm_compute in g in replace g with t by (vm_compute; reflexivity) end.
  destruct signature as [[|ch t]|]; cbn; rewrite ?str_app_assoc; reflexivity.
Qed.
