(** C14-C17: what one party sends is what the other party reads. *)
From Coq Require Import ZArith String Ascii List Bool Lia.
From Verif.Base Require Import Result Dict PyStr.
From Verif.Model Require Import Text DateTime Normalize Xml.
From Verif.Spec Require Import Calendar Instants TextSpec MessageSpec.
From Verif.Proofs Require Import DateTimeProofs NormalizeProofs MessageProofs ArrivalProofs.
From Verif.Properties Require Import P_DateTime.
Import ListNotations.
Local Open Scope string_scope.
Local Open Scope Z_scope.

(** A message with one text in it. *)
Definition text_message (name tag s : string) : xml := Elem name message_attrs "" [leaf tag s].

(** ** C14 *)
(** The property as stated: every text arrives. *)
Definition C14_full : Prop :=
  forall num n name tag key s, In (tag, key) text_fields ->
    parse_payload num (S n) (text_message name tag s) = Ok [(key, VStr s)].
(** Exactly the plain texts arrive: one line, not empty, no white space at the
    ends, not true or false, not like a number. *)
Theorem C14_texts_partial :
  forall num n name tag key s, In (tag, key) text_fields ->
    (parse_payload num (S n) (text_message name tag s) = Ok [(key, VStr s)] <-> plain s).
Proof.
  intros num n name tag key s I. unfold parse_payload, text_message. rewrite message_items. cbn [fold_left].
  assert (V : vget tag [("@schemaVersion", VStr "2.0b")] = None).
  { unfold text_fields in I. simpl in I. repeat (destruct I as [I|I]; [injection I as <- <-; reflexivity|]). contradiction. }
  rewrite push_absent by exact V. cbn [app]. rewrite skip_attribute. apply text_arrives_iff. now apply text_field_keys.
Qed.
Print Assumptions C14_texts_partial.
Theorem C14_texts_refuted : ~ C14_full.
Proof.
  intros F. assert (P : plain "007").
  { apply (C14_texts_partial (mk_numbers (fun _ => true) (fun _ => Ok 0) (fun _ => "")) 0 "oadrPoll" "venID" "ven_id"); [now left|apply F; now left]. }
  destruct P as (_ & _ & _ & N). apply N. apply looks_float_spec. reflexivity.
Qed.
Print Assumptions C14_texts_refuted.
(** Different identifiers become the same value. *)
Theorem C14_identifiers_collide :
  forall num n, exists s t v, s <> t /\
    parse_payload num (S n) (poll_xml s) = Ok [("ven_id", v)] /\ parse_payload num (S n) (poll_xml t) = Ok [("ven_id", v)].
Proof. intros num n. exists "7", "007", (VInt 7). split; [discriminate|]. split; reflexivity. Qed.
Print Assumptions C14_identifiers_collide.
Example C14_example : plain "ven 0x1F" /\ ~ plain "12.5" /\ ~ plain "-3" /\ ~ plain "" /\ ~ plain " x".
Proof.
  assert (P : forall s, plain s <-> parse_payload (mk_numbers (fun _ => true) (fun _ => Ok 0) (fun _ => "")) 1 (text_message "m" "venID" s) = Ok [("ven_id", VStr s)]).
  { intros s. symmetry. apply C14_texts_partial. now left. }
  rewrite !P. repeat split; discriminate.
Qed.

(** ** C15 *)
Definition good_header (r : option response) (request_id vtn_id : string) : Prop :=
  good (fun r => plain (r_description r) /\ plain (r_request_id r)) r /\ (request_id = "" \/ plain request_id) /\ plain vtn_id.
(** Without an identifier the receiver has None. *)
Definition id_arrived (s : string) (v : val) : Prop := if String.eqb s "" then v = VNone else is_text s v.
Definition header_arrived (r : option response) (request_id vtn_id : string) (p : val) : Prop :=
  holds p ["request_id"] (id_arrived request_id) /\ holds p ["vtn_id"] (is_text vtn_id) /\
  holds_opt p ["response"] (fun r v => holds v ["response_code"] (is_int (r_code r)) /\ holds v ["response_description"] (is_text (r_description r)) /\
                                       holds v ["request_id"] (is_text (r_request_id r))) r.
(** One entry per event, in order; [S] says what arrives of the signals. *)
Definition events_arrived (S : list signal -> val -> Prop) (es : list event) (p : val) : Prop :=
  match es with
  | [] => at_path ["events"] p = None
  | _ => holds p ["events"] (is_list (event_arrived S) es)
  end.
Definition C15_full : Prop :=
  forall num n r request_id vtn_id es, good_header r request_id vtn_id -> Forall (good_event num) es ->
    exists p, parse_payload num (9 + n) (distribute_event_xml r request_id vtn_id es) = Ok p /\
      header_arrived r request_id vtn_id (VDict p) /\ events_arrived signals_complete es (VDict p).

Lemma distribute_payload num n r request_id vtn_id es : good_header r request_id vtn_id -> Forall (good_event num) es ->
  exists p, parse_payload num (9 + n) (distribute_event_xml r request_id vtn_id es) = Ok p /\ header_arrived r request_id vtn_id (VDict p) /\
    forall S, events_arrived S es (VDict p) <-> Forall (fun e => S (e_signals e) (VList (map VDict (received (e_signals e))))) es.
Proof.
  intros (R & Q & V) G. eexists. split; [now apply distribute_event_parsed|]. split.
  - assert (I : id_arrived request_id (id_val request_id)) by (unfold id_arrived, id_val; now destruct request_id).
    unfold distribute_steps, header_arrived. destruct r, es; (split; [eexists; split; [reflexivity|exact I]|]); (split; [eexists; split; reflexivity|]); try reflexivity.
    all: eexists; (split; [reflexivity|]); repeat split; eexists; split; reflexivity.
  - intros S. unfold events_arrived. destruct es as [|e es]; [destruct r; split; intros _; [apply Forall_nil|reflexivity|apply Forall_nil|reflexivity]|].
    rewrite <- (received_events_arrived num S (e :: es) G).
    assert (E : at_path ["events"] (VDict (concat (map snd (distribute_steps r request_id vtn_id (e :: es))))) = Some (VList (map VDict (received_events (e :: es)))))
      by (unfold distribute_steps; destruct r; reflexivity).
    unfold holds. rewrite E. split; [intros (x & X & A); assert (X' : x = VList (map VDict (received_events (e :: es)))) by congruence; rewrite <- X'; exact A|intros A; eexists; now split].
Qed.

(** Everything but the measurements arrives, for any number of events, signals,
    intervals and targets. *)
Theorem C15_all_but_measurements_partial :
  forall num n r request_id vtn_id es, good_header r request_id vtn_id -> Forall (good_event num) es ->
    exists p, parse_payload num (9 + n) (distribute_event_xml r request_id vtn_id es) = Ok p /\
      header_arrived r request_id vtn_id (VDict p) /\ events_arrived (is_list signal_arrived_but_measurement) es (VDict p).
Proof.
  intros num n r q v es H G. destruct (distribute_payload num n r q v es H G) as (p & P & A & E). exists p. split; [exact P|]. split; [exact A|].
  apply E. eapply Forall_impl; [|exact G]. intros e (_ & _ & _ & S & _). now apply (received_but num).
Qed.
Print Assumptions C15_all_but_measurements_partial.
(** All measurements arrive in the uniform representation exactly if in no
    event a signal with a measurement comes after one without. *)
Theorem C15_complete_iff_partial :
  forall num n r request_id vtn_id es, good_header r request_id vtn_id -> Forall (good_event num) es ->
    exists p, parse_payload num (9 + n) (distribute_event_xml r request_id vtn_id es) = Ok p /\
      header_arrived r request_id vtn_id (VDict p) /\
      (events_arrived signals_complete es (VDict p) <-> Forall (fun e => measured_first (e_signals e)) es).
Proof.
  intros num n r q v es H G. destruct (distribute_payload num n r q v es H G) as (p & P & A & E). exists p. split; [exact P|]. split; [exact A|].
  rewrite E. split; intros F; rewrite Forall_forall in *; intros e I; destruct (G e I) as (_ & _ & _ & S & _).
  - apply (received_complete num _ S). now apply F.
  - apply (received_complete num _ S). now apply F.
Qed.
Print Assumptions C15_complete_iff_partial.

(** A moment for the examples: 2020-02-29T23:30:00 at UTC+05:30 *)
Definition moment : datetime := mkdt 2020 2 29 23 30 0 0 (19800 * 1000000).
Lemma good_moment : good_time moment.
Proof.
  eexists. split.
  - exists 737484. split; [apply day_number_by_ord; [reflexivity|lia]|]. split; [|reflexivity]. unfold time_of_day; simpl; lia.
  - do 2 eexists. split; [exists 364878|split; [exists 3652059|]].
    1, 2: split; [apply day_number_by_ord; [reflexivity|lia]|split; [unfold time_of_day; lia|reflexivity]].
    simpl. lia.
Qed.
Ltac plain_text := apply (C14_texts_partial (mk_numbers (fun _ => true) (fun _ => Ok 0) (fun _ => "")) 0 "m" "venID" "ven_id"); [now left|reflexivity].
Definition sample_signal (id : string) (m : option measurement) : signal :=
  mk_signal [mk_interval (Some moment) (Some 3600000000) (NInt 1); mk_interval None None (NInt 2)] "simple" "level" id m None.
Definition sample_measurement : measurement := mk_measurement "powerReal" "RealPower" "W" None "k" (Some (mk_power 50 230 true)).
Definition sample_event (id : string) (l : list signal) : event :=
  mk_event (mk_descriptor id 3 None None (Some 1) "http://market" moment "far" (Some false) None)
           (mk_active moment 7200000000 None (Some 600000000) None None) l
           (Some [mk_target None None None (Some "ven_1") None; mk_target (Some "g") None None None None; mk_target None None None (Some "ven_2") None]) "always".
Lemma good_sample_event num id l : plain id -> l <> [] -> Forall (good_signal num) l -> good_event num (sample_event id l).
Proof.
  intros P N F. split; [|split; [|split; [exact N|split; [exact F|split; [|plain_text]]]]].
  - unfold good_descriptor. cbn. repeat split; try exact I; try exact good_moment; try apply P; plain_text.
  - unfold good_period. cbn [sample_event e_active_period a_dtstart a_duration a_startafter a_notification a_ramp_up a_recovery good].
    split; [exact good_moment|]. repeat split; try exact I; try reflexivity; lia.
  - cbn [sample_event e_targets good].
    constructor; [|constructor; [|constructor; [|constructor]]]; intros k f J; unfold kinds in J; simpl in J;
      repeat (destruct J as [J|J]; [injection J as <- <-; cbn; first [exact I | right; plain_text]|]); contradiction.
Qed.
Lemma good_sample_signal num id m : plain id -> good good_measurement m -> good_signal num (sample_signal id m).
Proof.
  intros P M. split; [discriminate|]. split; [|split; [plain_text|split; [plain_text|split; [exact P|split; [exact M|exact I]]]]].
  constructor; [|constructor; [|constructor]]; (split; [first [exact good_moment | exact I]|split; [|exact I]]); [|exact I]. cbn [good i_duration]. repeat split; lia.
Qed.
Lemma good_sample_measurement : good_measurement sample_measurement.
Proof. repeat split; try plain_text. simpl. tauto. Qed.

Theorem C15_complete_refuted : ~ C15_full.
Proof.
  intros F. set (num := mk_numbers (fun _ => true) (fun _ => Ok 0) (fun _ => "")).
  set (es := [sample_event "e1" [sample_signal "s1" None; sample_signal "s2" (Some sample_measurement)]]).
  assert (H : good_header None "r1" "vtn") by (split; [exact I|]; split; [right|]; plain_text).
  assert (G : Forall (good_event num) es).
  { constructor; [|constructor]. apply good_sample_event; [plain_text|discriminate|].
    constructor; [apply good_sample_signal; [plain_text|exact I]|]. constructor; [apply good_sample_signal; [plain_text|exact good_sample_measurement]|constructor]. }
  destruct (F num 0%nat None "r1" "vtn" es H G) as (p & P & _ & E).
  destruct (C15_complete_iff_partial num 0 None "r1" "vtn" es H G) as (p' & P' & _ & E').
  rewrite P in P'. injection P' as <-. apply E' in E. inversion E as [|? ? M _]; subst.
  specialize (M [] (sample_signal "s1" None) [] (sample_signal "s2" (Some sample_measurement)) [] eq_refl eq_refl). discriminate M.
Qed.
Print Assumptions C15_complete_refuted.
Example C15_example : forall num,
  good_header (Some (mk_response 200 "OK" "r0")) "r1" "vtn" /\
  Forall (good_event num) [sample_event "e1" [sample_signal "s1" (Some sample_measurement); sample_signal "s2" None]; sample_event "e2" [sample_signal "s1" None]].
Proof.
  intros num. split; [split; [split; plain_text|]; split; [right|]; plain_text|].
  constructor; [|constructor; [|constructor]]; (apply good_sample_event; [plain_text|discriminate|]); repeat (constructor; [apply good_sample_signal; [plain_text|]|]);
    try constructor; try exact I; apply good_sample_measurement.
Qed.

(** ** C16 *)
(** Every opt response arrives; for an answer without responses there is
    nothing (None) in place of a list. *)
Theorem C16_responses_arrive :
  forall num n code description rs ven_id, plain description -> plain ven_id -> Forall good_response rs ->
    exists p, parse_payload num (5 + n) (created_event_xml code description rs ven_id) = Ok p /\
      holds (VDict p) ["ven_id"] (is_text ven_id) /\
      holds (VDict p) ["response"; "response_code"] (is_int code) /\ holds (VDict p) ["response"; "response_description"] (is_text description) /\
      match rs with
      | [] => at_path ["event_responses"] (VDict p) = Some VNone
      | _ => holds (VDict p) ["event_responses"] (is_list response_arrived rs)
      end.
Proof.
  intros num n code description rs ven_id D V G. eexists. split; [now apply created_event_parsed|].
  split; [eexists; split; reflexivity|]. split; [eexists; split; reflexivity|]. split; [eexists; split; reflexivity|].
  destruct rs as [|r rs]; [reflexivity|]. eexists. split; [reflexivity|].
  exact (is_list_map response_arrived (fun r => steps_payload (response_steps r)) (r :: rs) (fun a _ => response_arrived_payload a)).
Qed.
Print Assumptions C16_responses_arrive.
Example C16_example :
  Forall good_response [mk_event_response 200 (Some "OK") "r1" "e1" 0 "optIn"; mk_event_response 200 None "r2" "e2" 4 "optOut"] /\ plain "OK" /\ plain "ven_1".
Proof. split; [|split; plain_text]. constructor; [|constructor; [|constructor]]; repeat split; try exact I; plain_text. Qed.

(** ** C17 *)
Definition reports_arrived (rs : list report) (p : val) : Prop :=
  match rs with [] => at_path ["reports"] p = None | _ => holds p ["reports"] (is_list report_arrived rs) end.
(** The property as stated has two halves: values sent as floats and values sent as integers. *)
Definition C17_floats : Prop :=
  forall num n request_id rs ven_id, plain request_id -> good plain ven_id -> Forall (good_report num) rs ->
    exists p, parse_payload num (6 + n) (update_report_xml request_id rs ven_id) = Ok p /\
      holds (VDict p) ["request_id"] (is_text request_id) /\ holds_opt (VDict p) ["ven_id"] is_text ven_id /\ reports_arrived rs (VDict p).
Definition C17_integers : Prop :=
  forall num n request_id report_request_id specifier_id created t r_id z,
    plain request_id -> plain report_request_id -> plain specifier_id -> good_time created -> good_time t -> plain r_id ->
    exists p, parse_payload num (6 + n) (int_report_xml request_id report_request_id specifier_id created t r_id z) = Ok p /\
      holds (VDict p) ["reports"] (fun v => exists rep, v = VList [rep] /\ holds rep ["intervals"] (fun v => exists i, v = VList [i] /\ holds i ["report_payload"; "value"] (is_int z))).
Definition C17_full : Prop := C17_floats /\ C17_integers.
Theorem C17_floats_arrive_partial : C17_floats.
Proof.
  intros num n request_id rs ven_id R V G. eexists. split; [now apply update_report_parsed|].
  unfold update_steps, reports_arrived. destruct rs as [|r rs].
  - destruct ven_id; repeat split; try reflexivity; eexists; split; reflexivity.
  - assert (L : is_list report_arrived (r :: rs) (VList (map VDict (map (fun r => steps_payload (report_steps r)) (r :: rs))))).
    { apply is_list_map. intros a I. apply (report_arrived_payload num). rewrite Forall_forall in G. now apply G. }
    destruct ven_id; repeat split; try reflexivity; eexists; (split; [reflexivity|]); try reflexivity; exact L.
Qed.
Print Assumptions C17_floats_arrive_partial.
(** No report whose (only) value is sent as an integer can be read. *)
Theorem C17_integers_never_arrive :
  forall num n request_id report_request_id specifier_id created t r_id z,
    plain request_id -> good_time t -> plain r_id ->
    parse_payload num (6 + n) (int_report_xml request_id report_request_id specifier_id created t r_id z) = Raise KeyError.
Proof. intros. now apply int_report_unreadable. Qed.
Print Assumptions C17_integers_never_arrive.
Theorem C17_integers_refuted : ~ C17_full.
Proof.
  intros [_ F]. set (num := mk_numbers (fun _ => true) (fun _ => Ok 0) (fun _ => "")).
  destruct (F num 0%nat "r" "rr" "s" moment moment "x" 5) as (p & P & _); try plain_text; try exact good_moment.
  rewrite C17_integers_never_arrive in P; [discriminate P|plain_text|exact good_moment|plain_text].
Qed.
Print Assumptions C17_integers_refuted.
Example C17_example : forall num, Forall (good_report num)
  [mk_report (Some moment) [mk_report_interval moment (Some 1000000) (mk_payload "r1" None (Some (NInt 1)) (NInt 5) (Some "Quality Good - Non Specific"));
                            mk_report_interval moment None (mk_payload "r2" None None (NInt (-7)) None)] "req" "spec" (Some "TELEMETRY_USAGE") moment;
   mk_report None [] "req2" "spec2" None moment].
Proof.
  intros num.
  constructor; [|constructor; [|constructor]]; repeat split; try exact good_moment; try exact I; try plain_text; try (right; plain_text).
  - constructor; [|constructor; [|constructor]]; repeat split; try exact good_moment; try exact I; try plain_text; try lia.
  - constructor.
Qed.
