(** Lemmas for C84: the trees of the templates, filled with payloads. *)
From Coq Require Import ZArith String Ascii List Bool Lia.
From Verif.Base Require Import Result Dict PyStr ListExtra.
From Verif.Model Require Import Text Duration DateTime Normalize Xml XmlParty XmlOpt XmlText Jinja Payloads.
From Verif.Spec Require Import TextSpec XmlTextSpec.
From Verif.Proofs Require Import TextProofs XmlTextProofs TemplateProofs.
Import ListNotations.
Local Open Scope string_scope.

(** The elements of a template. *)
Definition items_of (name : string) : list item := match get_template name with Some ns => whole (scan 600 ns) | None => [IBad] end.
Lemma trees_bad other c xs : trees other [IBad] c <> Good xs.
Proof. discriminate. Qed.
Lemma render_items other name c xs : forallb (item_ok []) (items_of name) = true -> trees other (items_of name) c = Good xs -> exists s, shows_all xs s /\ render_template other name c = Ok s.
Proof.
  unfold items_of, render_template. destruct (get_template name) as [ns|]; [|intros _ H; destruct (trees_bad _ _ _ H)].
  destruct (scan 600 ns) as [[is [|r rs]]|] eqn:E; cbn [whole]; intros O H; try (destruct (trees_bad _ _ _ H)).
  pose proof (scan_shows other 600 ns is c E O) as S. rewrite H in S. exact S.
Qed.

Section Items.
Variable other : val -> string.
Notation tree := (tree other).
Notation trees := (trees other).

Lemma cons_app i is c xs ys : tree i c = Good xs -> trees is c = Good ys -> trees (i :: is) c = Good (xs ++ ys)%list.
Proof. intros A B. unfold TemplateProofs.trees. cbn [concat_all]. rewrite A. cbn [obind]. unfold TemplateProofs.trees in B. rewrite B. reflexivity. Qed.
Lemma cons_one i is c x ys : tree i c = Good [x] -> trees is c = Good ys -> trees (i :: is) c = Good (x :: ys).
Proof. exact (cons_app i is c [x] ys). Qed.
Lemma cons_skip i is c ys : tree i c = Good [] -> trees is c = Good ys -> trees (i :: is) c = Good ys.
Proof. exact (cons_app i is c [] ys). Qed.
Lemma last_item i c xs : tree i c = Good xs -> trees [i] c = Good xs.
Proof. intros A. rewrite (app_nil_end xs). now apply cons_app. Qed.
Lemma nil_items c : trees [] c = Good [].
Proof. reflexivity. Qed.

Lemma a_text q attrs a t c n w s : qname_text other c q = Good (n, w) -> part_text other c t = Ok s -> tree (IText q attrs a t) c = Good [Elem n (plain_attrs attrs) s []].
Proof. intros A B. cbn [TemplateProofs.tree]. rewrite A, B. reflexivity. Qed.
Lemma an_empty q attrs a c n w : qname_text other c q = Good (n, w) -> tree (IEmpty q attrs a) c = Good [Elem n (plain_attrs attrs) "" []].
Proof. intros A. cbn [TemplateProofs.tree]. rewrite A. reflexivity. Qed.
Lemma a_node q attrs a cs c n w xs : qname_text other c q = Good (n, w) -> trees cs c = Good xs -> tree (INode q attrs a cs) c = Good [Elem n (plain_attrs attrs) "" xs].
Proof. intros A B. cbn [TemplateProofs.tree]. rewrite A. cbn [obind]. unfold TemplateProofs.trees in B. rewrite B. reflexivity. Qed.
Lemma if_true e a b c v xs : eval other c e = Ok v -> truth v = true -> trees a c = Good xs -> tree (IIf e a b) c = Good xs.
Proof. intros A T B. cbn [TemplateProofs.tree]. rewrite A. cbn [lift obind]. now rewrite T. Qed.
Lemma if_false e a b c v xs : eval other c e = Ok v -> truth v = false -> trees b c = Good xs -> tree (IIf e a b) c = Good xs.
Proof. intros A T B. cbn [TemplateProofs.tree]. rewrite A. cbn [lift obind]. now rewrite T. Qed.

Lemma counted_map {A} (f : nat -> A -> list xml) (g : A -> val) x body c k l :
  (forall i a, In a l -> trees body (in_loop c x i (g a)) = Good (f i a)) ->
  concat_counted (fun k v => concat_all (fun i => tree i (in_loop c x k v)) body) k (map g l) = Good (concat (map (fun p => f (fst p) (snd p)) (combine (seq k (length l)) l))).
Proof.
  revert k. induction l as [|a l IH]; intros k H; [reflexivity|]. cbn [map concat_counted length seq combine concat fst snd]. unfold TemplateProofs.trees in H. rewrite (H k a (or_introl eq_refl)). cbn [obind].
  rewrite IH by (intros i b J; apply H; now right). reflexivity.
Qed.
Lemma concat_seq {A} (f : A -> list xml) k l : concat (map (fun p => f (snd p)) (combine (seq k (length l)) l)) = flat_map f l.
Proof. revert k. induction l as [|a l IH]; intros k; [reflexivity|]. cbn. now rewrite IH. Qed.
(** A loop over a list of the payload. *)
Lemma for_flat {A} (f : A -> list xml) (g : A -> val) x e body c l : eval other c e = Ok (Some (VList (map g l))) ->
  (forall i a, In a l -> trees body (in_loop c x i (g a)) = Good (f a)) -> tree (IFor x e body) c = Good (flat_map f l).
Proof.
  intros E H. cbn [TemplateProofs.tree]. rewrite E. cbn [lift obind iterate]. rewrite (counted_map (fun _ => f) g x body c 0 l H). f_equal. apply concat_seq.
Qed.
Lemma flat_one {A} (f : A -> xml) l : flat_map (fun a => [f a]) l = map f l.
Proof. induction l as [|a l IH]; [reflexivity|]. cbn. now rewrite IH. Qed.
Lemma flat_none {A B} (l : list A) : flat_map (fun _ => []) l = ([] : list B).
Proof. induction l as [|a l IH]; [reflexivity|exact IH]. Qed.
Lemma for_map {A} (f : A -> xml) (g : A -> val) x e body c l : eval other c e = Ok (Some (VList (map g l))) ->
  (forall i a, In a l -> trees body (in_loop c x i (g a)) = Good [f a]) -> tree (IFor x e body) c = Good (map f l).
Proof. intros E H. rewrite <- flat_one. now apply (for_flat (fun a => [f a]) g). Qed.
Lemma for_none {A} (g : A -> val) x e body c l : eval other c e = Ok (Some (VList (map g l))) ->
  (forall i a, In a l -> trees body (in_loop c x i (g a)) = Good []) -> tree (IFor x e body) c = Good [].
Proof. intros E H. rewrite (for_flat (fun _ => []) g x e body c l E H). now rewrite flat_none. Qed.
Lemma for_intervals (g : interval -> val) x e body c l : eval other c e = Ok (Some (VList (map g l))) ->
  (forall i a, In a l -> trees body (in_loop c x i (g a)) = Good [interval_xml i a]) -> tree (IFor x e body) c = Good (intervals_xml 0 l).
Proof.
  intros E H. cbn [TemplateProofs.tree]. rewrite E. cbn [lift obind iterate]. rewrite (counted_map (fun i a => [interval_xml i a]) g x body c 0 l H). f_equal.
  generalize 0%nat. clear. induction l as [|a l IH]; intros k; [reflexivity|]. cbn. now rewrite IH.
Qed.
Lemma for_undefined x e body c : eval other c e = Ok None -> tree (IFor x e body) c = Good [].
Proof. intros E. cbn [TemplateProofs.tree]. rewrite E. reflexivity. Qed.
Lemma characters_map s : map (fun c => String c EmptyString) (list_ascii_of_string s) = characters s.
Proof. induction s as [|ch s IH]; [reflexivity|]. cbn [list_ascii_of_string map characters]. now rewrite IH. Qed.
Lemma for_characters (f : string -> xml) x e body c s : eval other c e = Ok (Some (VStr s)) ->
  (forall i ch, trees body (in_loop c x i (VStr (String ch EmptyString))) = Good [f (String ch EmptyString)]) -> tree (IFor x e body) c = Good (map f (characters s)).
Proof.
  intros E H. cbn [TemplateProofs.tree]. rewrite E. cbn [lift obind iterate].
  rewrite (counted_map (fun _ ch => [f (String ch EmptyString)]) (fun ch => VStr (String ch EmptyString)) x body c 0 _ (fun i a _ => H i a)).
  f_equal. rewrite (concat_seq (fun ch => [f (String ch EmptyString)])). rewrite flat_one, <- characters_map, map_map. reflexivity.
Qed.
End Items.

(** ** Evaluating with the payload *)
Definition printable (t : datetime) : Prop := exists s, datetimeformat t = Ok s.
Lemma printable_eq t : printable t -> datetimeformat t = Ok (show_time t).
Proof. intros (s & E). unfold show_time. now rewrite E. Qed.
Lemma name_nameb s : name s -> nameb s = true.
Proof.
  intros [E C]. unfold nameb. apply andb_true_intro. split; [destruct s; [contradiction|reflexivity]|]. clear E. induction s as [|c s IH]; [reflexivity|]. destruct C as [H C].
  cbn [all_name]. rewrite (IH C), andb_true_r. unfold name_char in H. unfold nameb_char. cbv zeta in *. repeat rewrite orb_true_iff. repeat rewrite andb_true_iff. repeat rewrite N.leb_le. repeat rewrite N.eqb_eq. intuition lia.
Qed.

(** Printing ([ev]) and going through the items ([go]). *)
Ltac ev :=
  cbn [qname_text part_text q_prefix q_local eval bind attribute vget get app in_loop String.eqb Ascii.eqb Bool.eqb lift obind show truth negb andb orb
       apply_filter filter_datetime filter_timedelta filter_boolean filter_length starts_with greater or_none Payloads.text period given option_map].
Ltac vals :=
  unfold event_val, descriptor_val, active_period_val, signal_val, interval_val, measurement_val, power_val, target_val, answer_val,
    event_response_val, report_payload_val, report_interval_val, report_val, profile_val, sampling_val, description_val, offer_val, specifier_payload_val,
    report_request_val, cancel_val, available_val.
Ltac known := repeat match goal with
  | E : ?o = Some _ |- context [?o] => rewrite E
  | E : ?o = None |- context [?o] => rewrite E
  | |- context [datetimeformat ?t] => rewrite (printable_eq t) by assumption
  end.
Ltac calc := ev; unfold vget; known; vals; ev; unfold vget; known; ev; unfold vget; known; ev; try reflexivity; try (match goal with |- context [number_val ?n] => destruct n; reflexivity end).
Ltac cases := try lazymatch goal with
  | |- _ = Ok (show_bool ?b) => destruct b; reflexivity
  | |- _ = Ok (printed ?o) => destruct o; reflexivity
  | |- _ = Ok (show_number ?n) => destruct n; reflexivity
  end.
Ltac named := first [reflexivity|solve [calc; cbn [prefix_ok]; repeat match goal with H : nameb ?x = true |- context [nameb ?x] => rewrite H | H : existsb _ prefixes = true |- _ => rewrite H end; reflexivity]].
Ltac a_leaf := lazymatch goal with
  | |- tree _ (IText _ _ _ _) _ = Good _ => eapply a_text; [named|calc; cases]
  | |- tree _ (IEmpty _ _ _) _ = Good _ => eapply an_empty; reflexivity
  end.
Ltac decided := first [reflexivity|match goal with |- context [number_val ?n] => destruct n; reflexivity end].
Ltac branch := first [eapply if_true; [solve [calc]|decided|] | eapply if_false; [solve [calc]|decided|]].
Ltac is_opt := lazymatch goal with
  | |- _ = Good (opt _ (nonzero ?o)) => let E := fresh "E" in destruct o as [[|?p|?p]|] eqn:E
  | |- _ = Good (opt _ (nonempty_text ?o)) => let E := fresh "E" in destruct o as [[|?ch ?tx]|] eqn:E
  | |- _ = Good (opt _ ?o) => let E := fresh "E" in destruct o eqn:E
  end; cbn [opt nonzero nonempty_text].
Ltac skipped := apply cons_skip; [solve [eapply if_false; [solve [calc]|reflexivity|reflexivity]]|].
Ltac go :=
  cbn [app];
  lazymatch goal with
  | |- trees _ [] _ = _ => reflexivity
  | |- trees _ (IIf _ _ _ :: _) _ = _ => first [skipped; go | the_if]
  | |- trees _ (IFor _ _ [IIf _ [IFor _ _ [IBad]] _] :: _) _ = _ => apply cons_skip; [eapply for_none; [solve [calc]|intros; skipped; reflexivity]|go]
  | |- trees _ (IFor _ _ _ :: nil) _ = Good (app _ _) => idtac
  | |- trees _ (IFor _ _ _ :: nil) _ = Good _ => apply last_item; loop
  | |- trees _ (IFor _ _ _ :: _) _ = Good (app _ _) => apply cons_app; [loop|go]
  | |- trees _ (INode _ _ _ _ :: _) _ = Good (_ :: _) => apply cons_one; [eapply a_node; [named|go]|go]
  | |- trees _ (_ :: _) _ = Good (_ :: _) => apply cons_one; [a_leaf|go]
  | _ => idtac
  end
with the_if :=
  lazymatch goal with
  | |- trees _ (_ :: nil) _ = Good (app _ _) => idtac
  | |- trees _ (_ :: nil) _ = Good _ => apply last_item; an_if
  | |- trees _ (_ :: _) _ = Good (app _ _) => apply cons_app; [an_if|go]
  | |- trees _ (_ :: _) _ = Good (_ :: _) => apply cons_one; [an_if|go]
  | _ => idtac
  end
with an_if := try is_opt; first [branch; go | idtac]
with loop := first [eapply for_map; [solve [calc]|intros ?i ?a ?J] | idtac].

Section Messages.
Variables (other : val -> string) (extra : vdict).
Ltac start n := let i := eval vm_compute in (items_of n) in replace (items_of n) with i by (vm_compute; reflexivity).

Lemma poll_tree v : trees other (items_of "oadrPoll.xml") (poll_payload v ++ extra)%list = Good [signed_object_xml (poll_xml v)].
Proof. start "oadrPoll.xml". unfold poll_payload. go. Qed.
Lemma create_party_tree q p : trees other (items_of "oadrCreatePartyRegistration.xml") (create_party_payload q p ++ extra)%list = Good [signed_object_xml (create_party_xml q p)].
Proof. start "oadrCreatePartyRegistration.xml". unfold create_party_payload, create_party_xml. go. Qed.
Lemma cancel_party_tree q g v : trees other (items_of "oadrCancelPartyRegistration.xml") (cancel_party_payload q g v ++ extra)%list = Good [signed_object_xml (cancel_party_xml q g v)].
Proof. start "oadrCancelPartyRegistration.xml". unfold cancel_party_payload. go. Qed.
Lemma canceled_party_tree r g v : trees other (items_of "oadrCanceledPartyRegistration.xml") (canceled_party_payload r g v ++ extra)%list = Good [signed_object_xml (canceled_party_xml r g v)].
Proof. start "oadrCanceledPartyRegistration.xml". unfold canceled_party_payload. go. Qed.
Lemma query_tree q : trees other (items_of "oadrQueryRegistration.xml") (query_registration_payload q ++ extra)%list = Good [signed_object_xml (query_registration_xml q)].
Proof. start "oadrQueryRegistration.xml". unfold query_registration_payload. go. Qed.
Lemma reregistration_tree v : trees other (items_of "oadrRequestReregistration.xml") (request_reregistration_payload v ++ extra)%list = Good [signed_object_xml (request_reregistration_xml v)].
Proof. start "oadrRequestReregistration.xml". unfold request_reregistration_payload. go. Qed.
Lemma request_event_tree q v l : trees other (items_of "oadrRequestEvent.xml") (request_event_payload q v l ++ extra)%list = Good [signed_object_xml (request_event_xml q v l)].
Proof. start "oadrRequestEvent.xml". unfold request_event_payload. go. Qed.
Lemma cancel_report_tree q i f v : trees other (items_of "oadrCancelReport.xml") (cancel_report_payload q i f v ++ extra)%list = Good [signed_object_xml (cancel_report_xml q i f v)].
Proof. start "oadrCancelReport.xml". unfold cancel_report_payload. go. Qed.
Lemma response_tree r v : trees other (items_of "oadrResponse.xml") (response_message_payload r v ++ extra)%list = Good [signed_object_xml (response_message_xml r v)].
Proof. start "oadrResponse.xml". unfold response_message_payload, response_message_xml, answer_tested_xml. destruct (an_request_id r) eqn:E; go. Qed.
Lemma created_event_tree r rs v : trees other (items_of "oadrCreatedEvent.xml") (created_event_payload r rs v ++ extra)%list = Good [signed_object_xml (created_event_xml (an_code r) (an_description r) rs v)].
Proof. start "oadrCreatedEvent.xml". unfold created_event_payload, created_event_xml. go. unfold event_response_xml. go. Qed.
Lemma opt_answers_tree r i :
  trees other (items_of "oadrCreatedOpt.xml") (opt_answer_payload r i ++ extra)%list = Good [signed_object_xml (opt_answer_xml "oadrCreatedOpt" r i)] /\
  trees other (items_of "oadrCanceledOpt.xml") (opt_answer_payload r i ++ extra)%list = Good [signed_object_xml (opt_answer_xml "oadrCanceledOpt" r i)].
Proof. split; [start "oadrCreatedOpt.xml"|start "oadrCanceledOpt.xml"]; unfold opt_answer_payload; go. Qed.
Lemma cancel_opt_tree i v : vget "request_id" extra = None -> trees other (items_of "oadrCancelOpt.xml") (cancel_opt_payload i v ++ extra)%list = Good [signed_object_xml (cancel_opt_xml i v)].
Proof. intros H. start "oadrCancelOpt.xml". unfold vget in H. unfold cancel_opt_payload. go. Qed.

(** ** Payloads with keys that may be left out *)
Section Context.
Variable c : vdict.
Definition has (k : string) (v : val) : Prop := get String.eqb k c = Some v.
Definition may_have (k : string) (o : option val) : Prop := match o with Some v => get String.eqb k c = Some v | None => get String.eqb k c = None \/ get String.eqb k c = Some VNone end.
Ltac sharpen := unfold has in *; repeat match goal with H : may_have _ (option_map _ (Some _)) |- _ => cbn [may_have option_map] in H | H : may_have _ (option_map _ None) |- _ => cbn [may_have option_map] in H; destruct H as [H|H] | H : nameb _ = true /\ existsb _ prefixes = true |- _ => destruct H end.
Ltac is_opt ::= (lazymatch goal with
  | |- _ = Good (opt _ (nonzero ?o)) => let E := fresh "E" in destruct o as [[|?p|?p]|] eqn:E
  | |- _ = Good (opt _ (nonempty_text ?o)) => let E := fresh "E" in destruct o as [[|?ch ?tx]|] eqn:E
  | |- _ = Good (opt _ ?o) => let E := fresh "E" in destruct o eqn:E
  | |- _ = Good [leaf _ (text_or_empty ?o)] => let E := fresh "E" in destruct o eqn:E
  | |- _ = Good [match nonzero ?o with Some _ => _ | None => _ end] => let E := fresh "E" in destruct o as [[|?p|?p]|] eqn:E
  | |- _ = Good [leaf _ (match ?o with Some _ => _ | None => _ end)] => let E := fresh "E" in destruct o eqn:E
  end); sharpen; cbn [opt nonzero nonempty_text text_or_empty].

Lemma created_party_tree r p : has "response" (answer_val r) -> has "vtn_id" (VStr (cp_vtn_id p)) -> has "profiles" (VList (map profile_val (cp_profiles p))) ->
  may_have "ven_id" (option_map VStr (cp_ven_id p)) -> may_have "registration_id" (option_map VStr (cp_registration_id p)) -> may_have "requested_oadr_poll_freq" (option_map VDur (cp_poll_freq p)) ->
  trees other (items_of "oadrCreatedPartyRegistration.xml") c = Good [signed_object_xml (created_party_xml r p)].
Proof.
  intros. sharpen. start "oadrCreatedPartyRegistration.xml". unfold created_party_xml. go. unfold profile_xml. go. go.
Qed.
Definition request_printable (r : report_request) : Prop := match rr_interval r with Some i => printable (fst i) | None => True end.
Lemma registered_report_tree r rs v : has "response" (answer_val r) -> has "report_requests" (VList (map report_request_val rs)) -> may_have "ven_id" (option_map VStr v) ->
  Forall request_printable rs -> trees other (items_of "oadrRegisteredReport.xml") c = Good [signed_object_xml (registered_report_xml r rs v)].
Proof.
  intros ? ? ? P. sharpen. start "oadrRegisteredReport.xml". unfold registered_report_xml. go. unfold report_request_xml. rewrite Forall_forall in P. specialize (P _ J). unfold request_printable in P. go. go.
Qed.
Lemma create_report_tree q rs v : has "request_id" (VStr q) -> has "report_requests" (VList (map report_request_val rs)) -> has "ven_id" (VStr v) ->
  Forall request_printable rs -> trees other (items_of "oadrCreateReport.xml") c = Good [signed_object_xml (create_report_xml q rs v)].
Proof.
  intros ? ? ? P. sharpen. start "oadrCreateReport.xml". unfold create_report_xml. go. unfold report_request_xml. rewrite Forall_forall in P. specialize (P _ J). unfold request_printable in P. go. go.
Qed.
(** The identifiers of pending reports; none if there is no such key. *)
Definition pending (ids : list string) : Prop :=
  get String.eqb "pending_reports" c = Some (VList (map (fun i => VDict [("report_request_id", VStr i)]) ids)) \/ ids = [] /\ get String.eqb "pending_reports" c = None.
Lemma pending_reports_tree r ids v : has "response" (answer_val r) -> pending ids -> may_have "ven_id" (option_map VStr v) ->
  trees other (items_of "oadrCreatedReport.xml") c = Good [signed_object_xml (pending_reports_xml "oadrCreatedReport" r ids v)] /\
  trees other (items_of "oadrCanceledReport.xml") c = Good [signed_object_xml (pending_reports_xml "oadrCanceledReport" r ids v)].
Proof.
  intros ? P ?. sharpen. split; [start "oadrCreatedReport.xml"|start "oadrCanceledReport.xml"]; unfold pending_reports_xml; (destruct P as [P|[-> P]]; [go; go|]); go; apply for_undefined; calc.
Qed.
Lemma updated_report_tree r d v : has "response" (answer_val r) -> may_have "cancel_report" (option_map cancel_val d) -> may_have "ven_id" (option_map VStr v) ->
  trees other (items_of "oadrUpdatedReport.xml") c = Good [signed_object_xml (updated_report_xml r d v)].
Proof.
  intros. sharpen. start "oadrUpdatedReport.xml". unfold updated_report_xml, answer_tested_xml. go. 
  unfold request_ids_val, iterated. destruct (cr_ids c0) as [s|l] eqn:I.
  - eapply for_characters; [calc; rewrite I; reflexivity|]. intros. go.
  - eapply for_map; [calc; rewrite I; reflexivity|]. intros. go.
Qed.
Definition report_interval_printable (i : report_interval) : Prop := printable (ri_dtstart i).
Definition report_printable (r : report) : Prop :=
  match rt_dtstart r with Some t => printable t | None => True end /\ Forall report_interval_printable (rt_intervals r) /\ printable (rt_created r).
Lemma update_report_tree q rs v : has "request_id" (VStr q) -> has "reports" (VList (map report_val rs)) -> may_have "ven_id" (option_map VStr v) ->
  Forall report_printable rs -> trees other (items_of "oadrUpdateReport.xml") c = Good [signed_object_xml (update_report_xml q rs v)].
Proof.
  intros ? ? ? P. sharpen. start "oadrUpdateReport.xml". unfold update_report_xml. go.
  assert (D : rs = [] \/ rs <> []) by (destruct rs; [now left|now right]). destruct D as [->|D].
  { eapply if_false; [calc|reflexivity|reflexivity]. }
  eapply if_true; [calc|destruct rs; [contradiction|reflexivity]|]. go. rewrite Forall_forall in P. destruct (P _ J) as (P1 & P2 & P3). unfold report_xml. go.
  assert (N : rt_intervals a = [] \/ rt_intervals a <> []) by (destruct (rt_intervals a); [now left|now right]). destruct N as [N|N].
  { rewrite N. eapply if_false; [calc; rewrite N; reflexivity|reflexivity|reflexivity]. }
  eapply if_true; [calc|destruct (rt_intervals a); [contradiction|reflexivity]|].
  match goal with |- _ = Good ?l => replace l with [node "intervals" (map report_interval_xml (rt_intervals a))] by (destruct (rt_intervals a); [contradiction|reflexivity]) end.
  go. rewrite Forall_forall in P2. specialize (P2 _ J0). unfold report_interval_printable in P2. unfold report_interval_xml. cbv zeta. go.
Qed.
Definition measurement_named (ns : string -> string) (m : measurement) : Prop := nameb (m_name m) = true /\ existsb (String.eqb (ns (m_name m))) prefixes = true.
Definition description_named (ns : string -> string) (d : description) : Prop := match rd_measurement d with Some m => measurement_named ns m | None => True end.
Definition offer_fine (ns : string -> string) (o : offer) : Prop := printable (of_created o) /\ Forall (description_named ns) (of_descriptions o).
Lemma register_report_tree ns q os v : has "request_id" (VStr q) -> has "reports" (VList (map (offer_val ns) os)) -> may_have "ven_id" (option_map VStr v) ->
  Forall (offer_fine ns) os -> trees other (items_of "oadrRegisterReport.xml") c = Good [signed_object_xml (register_report_xml q os v)].
Proof.
  intros ? ? ? P. sharpen. start "oadrRegisterReport.xml". unfold register_report_xml. go. rewrite Forall_forall in P. destruct (P _ J) as (P1 & P2). unfold offer_xml. go.
  rewrite Forall_forall in P2. specialize (P2 _ J0). unfold description_named, measurement_named in P2. unfold description_xml. go.
Qed.

Definition opt_printable (o : opt_message) : Prop := printable (om_created o) /\ match om_availability o with Some cs => Forall (fun a => printable (fst a)) cs | None => True end.
Lemma create_opt_tree q v o : c = (create_opt_payload q v o ++ extra)%list -> opt_printable o ->
  trees other (items_of "oadrCreateOpt.xml") c = Good [signed_object_xml (create_opt_xml q v o)].
Proof.
  intros -> [P1 P2]. start "oadrCreateOpt.xml". unfold create_opt_payload, create_opt_xml. go.
  - rewrite Forall_forall in P2. specialize (P2 _ J). go.
  - unfold opt_targets_xml. destruct (om_targets o) as [|t ts] eqn:T; [branch; go|].
    eapply if_true; [calc|reflexivity|]. rewrite <- T. go. unfold opt_target_xml. go.
Qed.

Definition interval_printable (i : interval) : Prop := match i_dtstart i with Some t => printable t | None => True end.
Definition signal_fine (ns : string -> string) (s : signal) : Prop :=
  Forall interval_printable (s_intervals s) /\ match s_measurement s with Some m => measurement_named ns m | None => True end.
Definition descriptor_printable (d : descriptor) : Prop := match d_modification_date_time d with Some t => printable t | None => True end /\ printable (d_created d).
Definition event_fine (ns : string -> string) (e : event) : Prop := descriptor_printable (e_descriptor e) /\ printable (a_dtstart (e_active_period e)) /\ Forall (signal_fine ns) (e_signals e).
(** A text that is printed as nothing if there is no such key. *)
Definition prints (k : string) (o : option string) : Prop := get String.eqb k c = option_map VStr o.
Definition as_response (r : answer) : response := mk_response (an_code r) (an_description r) (printed (an_request_id r)).
Lemma distribute_event_tree ns r q v es : may_have "response" (option_map answer_val r) -> prints "request_id" q -> has "vtn_id" (VStr v) -> has "events" (VList (map (event_val ns) es)) ->
  Forall (event_fine ns) es -> trees other (items_of "oadrDistributeEvent.xml") c = Good [signed_object_xml (distribute_event_xml (option_map as_response r) (text_or_empty q) v es)].
Proof.
  intros ? Q ? ? P. sharpen. unfold prints in Q. start "oadrDistributeEvent.xml". unfold distribute_event_xml.
  replace (opt response_xml (option_map as_response r)) with (opt (fun a => response_xml (as_response a)) r) by now destruct r. unfold response_xml, as_response. cbn [r_code r_description r_request_id]. go.
  { destruct q; cbn [option_map] in Q; calc. }
  rewrite Forall_forall in P. destruct (P _ J) as ([P1 P2] & P3 & P4). unfold event_xml, descriptor_xml, active_period_xml. go.
  { rewrite Forall_forall in P4. destruct (P4 _ J0) as (P5 & P6). unfold measurement_named in P6. unfold signal_xml, measurement_xml, payload_xml. go.
    { eapply for_intervals; [calc|]. intros k b B. rewrite Forall_forall in P5. specialize (P5 _ B). unfold interval_printable in P5. unfold interval_xml, payload_xml. go. }
  }
  all: unfold target_xmls; eapply for_flat; [solve [calc]|]; intros k t T; apply last_item.
  all: match goal with |- _ = Good match ?m ?t with _ => _ end => destruct (m t) as [[|? ?]|] eqn:E0 end; (branch; go).
Qed.
End Context.
End Messages.
