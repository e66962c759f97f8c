(** C75, C76: the VTN's handlers and polls that user code answers. *)
From Coq Require Import ZArith String List Bool.
From Verif.Base Require Import Result Dict ListExtra.
From Verif.Model Require Import VtnService Handlers.
From Verif.Spec Require Import HandlerSpec.
Import ListNotations.
Local Open Scope string_scope.

Lemma attr_eqb_eq a b : attr_eqb a b = true <-> a = b.
Proof. unfold attr_eqb. rewrite andb_true_iff, !String.eqb_eq. destruct a, b. simpl. split; [intros [-> ->]; reflexivity|intros E; injection E as -> ->; auto]. Qed.

Lemma map_known name : mem String.eqb name handler_map = true <-> In name documented.
Proof.
  unfold mem. split.
  - destruct (get String.eqb name handler_map) as [svc|] eqn:G; [|discriminate]. intros _. apply (get_in String.eqb String.eqb_eq) in G.
    unfold handler_map in G. simpl in G. unfold documented.
    repeat (destruct G as [G|G]; [injection G as <- _; simpl; tauto|]). contradiction.
  - unfold documented. intros I. simpl in I. repeat (destruct I as [<-|I]; [reflexivity|]). contradiction.
Qed.

Lemma last_for_snoc hist name f n g : last_for (hist ++ [(n, g)])%list name f <-> (n = name /\ g = f) \/ (n <> name /\ last_for hist name f).
Proof.
  split.
  - intros (b & l & E & N). destruct l as [|x l] using rev_ind.
    + apply app_inj_tail in E as [_ E]. injection E as -> ->. now left.
    + clear IHl. rewrite app_comm_cons, app_assoc in E. apply app_inj_tail in E as [-> <-]. rewrite map_app in N. right. split.
      * intros ->. apply N. apply in_app_iff. right. now left.
      * exists b, l. split; [reflexivity|]. intros I. apply N. apply in_app_iff. now left.
  - intros [[-> ->]|[NE (b & l & -> & N)]].
    + exists hist, []. split; [reflexivity|intros []].
    + exists b, (l ++ [(n, g)])%list. split; [now rewrite <- app_assoc|]. rewrite map_app, in_app_iff. simpl. intuition congruence.
Qed.

Lemma configured_facts hist s : configured hist s ->
  (forall svc name f, get String.eqb name handler_map = Some svc -> get attr_eqb (svc, name) (attributes s) = Some f <-> last_for hist name f) /\
  (poll_external s = true <-> exists g, In ("on_poll", g) hist) /\ event_external s = poll_external s.
Proof.
  intros C. induction C as [|hist s n g s' C (A & P & E) H].
  - split; [|split; [|reflexivity]].
    + intros svc name f _. simpl. split; [discriminate|]. intros (b & l & X & _). destruct b; discriminate.
    + split; [discriminate|]. intros (g & []).
  - unfold add_handler in H. destruct (get String.eqb n handler_map) as [svc'|] eqn:M; [|discriminate]. injection H as <-. cbn [attributes poll_external event_external]. split; [|split].
    + intros svc name f G. rewrite last_for_snoc, (get_set attr_eqb attr_eqb_eq). destruct (attr_eqb (svc, name) (svc', n)) eqn:Q.
      * apply attr_eqb_eq in Q. injection Q as -> ->. split; [intros X; injection X as ->; left; auto|intros [[_ ->]|[X _]]; congruence].
      * rewrite (A svc name f G). split; [intros L; right; split; [|exact L]|intros [[-> _]|[_ L]]; [|exact L]].
        -- intros ->. rewrite M in G. injection G as ->. rewrite (proj2 (attr_eqb_eq _ _) eq_refl) in Q. discriminate.
        -- rewrite M in G. injection G as ->. rewrite (proj2 (attr_eqb_eq _ _) eq_refl) in Q. discriminate.
    + rewrite orb_true_iff, String.eqb_eq, P. split.
      * intros [->|(x & I)]; [exists g|exists x]; apply in_app_iff; [right; now left|now left].
      * intros (x & I). apply in_app_iff in I as [I|[I|[]]]; [right; eauto|left; congruence].
    + now rewrite E.
Qed.

Lemma configured_known hist s name f : configured hist s -> last_for hist name f -> exists svc, get String.eqb name handler_map = Some svc.
Proof.
  intros C (b & l & E & _). assert (I : In name (map fst hist)) by (rewrite E, map_app; apply in_app_iff; right; now left). clear E.
  induction C as [|hist s n g s' C IH H]; [contradiction|]. rewrite map_app, in_app_iff in I. destruct I as [I|[<-|[]]]; [now apply IH|].
  unfold add_handler in H. cbn [fst]. destruct (get String.eqb n handler_map) as [svc|]; [now exists svc|discriminate].
Qed.

(** ** C75: a handler that was added is used by some message. *)
Definition C75_full : Prop := forall hist s name f, configured hist s -> last_for hist name f -> exists m, In (name, Some f) (calls s m).

(** Who is called: exactly the handler that was added last under the name, and
    the one of the class only when none was added. *)
Theorem C75_who_partial : forall hist s m name f, configured hist s -> In (name, f) (calls s m) ->
  match f with Some f => last_for hist name f | None => forall g, ~ In (name, g) hist end.
Proof.
  intros hist s m name f C I. destruct (configured_facts hist s C) as (A & _).
  assert (K : forall svc name f, get String.eqb name handler_map = Some svc -> call s svc name = (name, f) ->
    match f with Some f => last_for hist name f | None => forall g, ~ In (name, g) hist end).
  { intros svc n g G E. unfold call in E. injection E as E. destruct g as [g|]; [now apply A with svc|]. intros g I'.
    assert (L : exists g, last_for hist n g).
    { clear - I'. induction hist as [|[n' g'] hist IH] using rev_ind; [contradiction|]. destruct (string_dec n' n) as [->|N].
      - exists g'. apply last_for_snoc. now left.
      - apply in_app_iff in I' as [I'|[I'|[]]]; [|congruence]. destruct (IH I') as (x & L). exists x. apply last_for_snoc. right. auto. }
    destruct L as (x & L). apply (A svc n x G) in L. congruence. }
  assert (R : forall svc n k, get String.eqb n handler_map = Some svc -> In (name, f) (repeat (call s svc n) k) ->
    match f with Some f => last_for hist name f | None => forall g, ~ In (name, g) hist end).
  { intros svc n k G J. apply repeat_spec in J. assert (name = n) by (unfold call in J; congruence). subst n. now apply (K svc name f G). }
  assert (Q : In (name, f) (request_event s) -> match f with Some f => last_for hist name f | None => forall g, ~ In (name, g) hist end).
  { unfold request_event. destruct (event_external s); [|contradiction]. apply (R _ _ 1%nat). reflexivity. }
  destruct m as [u| |n|n|n any| | | |]; cbn [calls] in I.
  - destruct (poll_external s); [now apply (R "poll_service" "on_poll" 1%nat)|]. destruct u; [exact (Q I)|contradiction].
  - exact (Q I).
  - destruct (event_external s); [|contradiction]. now apply (R "event_service" "on_created_event" n).
  - now apply (R "report_service" "on_register_report" n).
  - destruct any; [contradiction|]. now apply (R "report_service" "on_update_report" n).
  - now apply (R "report_service" "on_created_report" 1%nat).
  - destruct (call s "registration_service" "on_query_registration") as [n [g|]] eqn:E; [|contradiction]. destruct I as [I|[]]. injection I as <- <-.
    assert (n = "on_query_registration") by (unfold call in E; congruence). subst n. now apply (K "registration_service" "on_query_registration" (Some g)).
  - now apply (R "registration_service" "on_create_party_registration" 1%nat).
  - now apply (R "registration_service" "on_cancel_party_registration" 1%nat).
Qed.

(** Which handlers are used: not the two for which there is no message, and
    those for events only once on_poll was added too. *)
Theorem C75_used_iff_partial : forall hist s name f, configured hist s -> last_for hist name f ->
  (exists m, In (name, Some f) (calls s m)) <->
  name <> "on_create_report" /\ name <> "on_request_report" /\
  (name = "on_request_event" \/ name = "on_created_event" -> exists g, In ("on_poll", g) hist).
Proof.
  intros hist s name f C L. destruct (configured_facts hist s C) as (A & P & E). destruct (configured_known hist s name f C L) as (svc & G).
  pose proof (proj2 (A svc name f G) L) as V.
  assert (R : forall svc n k, In (name, Some f) (repeat (call s svc n) k) -> name = n).
  { intros svc' n k J. apply repeat_spec in J. unfold call in J. congruence. }
  split.
  - intros (m & I). rewrite <- P.
    assert (Q : In (name, Some f) (request_event s) -> name = "on_request_event" /\ poll_external s = true).
    { unfold request_event. rewrite E. destruct (poll_external s); [|contradiction]. intros J. split; [now apply (R "event_service" _ 1%nat)|reflexivity]. }
    destruct m as [u| |n|n|n any| | | |]; cbn [calls] in I.
    + destruct (poll_external s); [apply (R "poll_service" _ 1%nat) in I; subst; repeat split; try discriminate; auto|].
      destruct u; [|contradiction]. destruct (Q I). discriminate.
    + destruct (Q I) as [-> ->]. repeat split; discriminate || auto.
    + rewrite E in I. destruct (poll_external s); [|contradiction]. apply R in I. subst. repeat split; discriminate || auto.
    + apply R in I. subst. repeat split; try discriminate. intros [?|?]; discriminate.
    + destruct any; [contradiction|]. apply R in I. subst. repeat split; try discriminate. intros [?|?]; discriminate.
    + apply (R "report_service" _ 1%nat) in I. subst. repeat split; try discriminate. intros [?|?]; discriminate.
    + destruct (call s "registration_service" "on_query_registration") as [n [g|]] eqn:X; [|contradiction]. destruct I as [I|[]]. injection I as <- <-.
      assert (n = "on_query_registration") by (unfold call in X; congruence). subst. repeat split; try discriminate. intros [?|?]; discriminate.
    + apply (R "registration_service" _ 1%nat) in I. subst. repeat split; try discriminate. intros [?|?]; discriminate.
    + apply (R "registration_service" _ 1%nat) in I. subst. repeat split; try discriminate. intros [?|?]; discriminate.
  - intros (N1 & N2 & H). rewrite <- P in H.
    assert (D : In name documented) by (apply map_known; unfold mem; now rewrite G).
    assert (F : forall n, name = n -> call s svc n = (n, Some f)) by (intros n <-; unfold call; now rewrite V).
    unfold documented in D. simpl in D.
    repeat (destruct D as [D|D]; [subst name; simpl in G; injection G as <-|]); try contradiction; try congruence.
    + exists (CreatedEvent 1). cbn [calls]. rewrite E, H by auto. left. now apply F.
    + exists RequestEvent. cbn [calls]. unfold request_event. rewrite E, H by auto. left. now apply F.
    + exists (RegisterReport 1). left. now apply F.
    + exists CreatedReport. left. now apply F.
    + exists (UpdateReport 1 false). left. now apply F.
    + exists (Poll false). cbn [calls]. rewrite (proj2 P); [left; now apply F|]. destruct L as (b & l & -> & _). exists f. apply in_app_iff. right. now left.
    + exists QueryRegistration. cbn [calls]. rewrite F by reflexivity. now left.
    + exists CreatePartyRegistration. left. now apply F.
    + exists CancelPartyRegistration. left. now apply F.
Qed.

Definition with_handlers (l : list (string * nat)) : result server := foldM (fun s p => add_handler (fst p) (snd p) s) l new_server.

Theorem C75_never_refuted : ~ C75_full.
Proof.
  intros H. assert (C : configured [("on_request_event", 3%nat)] (mk_server [(("event_service", "on_request_event"), 3%nat)] false false)).
  { apply (configured_add [] new_server); [constructor|reflexivity]. }
  assert (L : last_for [("on_request_event", 3%nat)] "on_request_event" 3) by (exists [], []; split; [reflexivity|intros []]).
  pose proof (H _ _ _ _ C L) as X. apply (C75_used_iff_partial _ _ _ _ C L) in X as (_ & _ & X). destruct (X (or_introl eq_refl)) as (g & [I|[]]). discriminate.
Qed.

(** Names: exactly the documented ones are accepted. *)
Theorem C75_names_partial : forall name f s, (exists s', add_handler name f s = Ok s') <-> In name documented.
Proof.
  intros name f s. rewrite <- map_known. unfold add_handler, mem. destruct (get String.eqb name handler_map); split; try discriminate; eauto. intros (s' & H). discriminate.
Qed.
Theorem C75_unknown_partial : forall name f s, ~ In name documented -> add_handler name f s = Raise NameError.
Proof.
  intros name f s N. unfold add_handler. destruct (get String.eqb name handler_map) eqn:G; [|reflexivity]. destruct N. apply map_known. unfold mem. now rewrite G.
Qed.

(** With on_poll the VTN's own queue is out of use: nothing can be added, and
    what was added before is not sent, whichever message asks. *)
Theorem C75_queue_partial : forall hist s, configured hist s ->
  (add_event_accepted s = true <-> forall g, ~ In ("on_poll", g) hist) /\
  ((exists g, In ("on_poll", g) hist) -> calls s RequestEvent <> [] /\ forall u, calls s (Poll u) <> []).
Proof.
  intros hist s C. destruct (configured_facts hist s C) as (_ & P & E). unfold add_event_accepted. rewrite E. split.
  - rewrite negb_true_iff. split.
    + intros F g I. assert (poll_external s = true) by (apply P; eauto). congruence.
    + intros N. destruct (poll_external s); [|reflexivity]. destruct (proj1 P eq_refl) as (g & I). destruct (N g I).
  - intros X. apply P in X. cbn [calls]. unfold request_event. rewrite E, X. split; discriminate.
Qed.

Example C75_example : exists s, with_handlers [("on_poll", 1%nat); ("on_created_event", 2%nat); ("on_poll", 3%nat)] = Ok s /\
  configured [("on_poll", 1%nat); ("on_created_event", 2%nat); ("on_poll", 3%nat)] s /\
  calls s (Poll true) = [("on_poll", Some 3%nat)] /\ calls s (CreatedEvent 2) = [("on_created_event", Some 2%nat); ("on_created_event", Some 2%nat)] /\
  calls s RequestEvent = [("on_request_event", None)] /\ with_handlers [("on_pol", 1%nat)] = Raise NameError.
Proof.
  eexists. split; [reflexivity|]. split; [|repeat split].
  change [("on_poll", 1%nat); ("on_created_event", 2%nat); ("on_poll", 3%nat)] with (([("on_poll", 1%nat)] ++ [("on_created_event", 2%nat)]) ++ [("on_poll", 3%nat)])%list.
  eapply configured_add; [|reflexivity]. eapply configured_add; [|reflexivity]. eapply (configured_add []); [constructor|reflexivity].
Qed.

(** ** C76: what on_poll returns reaches the VEN. *)
Definition C76_full : Prop := forall w cfg message r, offered_result r ->
  exists t p, complete w cfg "oadrPoll" message (poll_result r) = Ok (t, p) /\ conveys r t p.

Lemma complete_get w cfg t message t' q : exists p, complete w cfg t message (HPair t' (HDict q)) = Ok (t', p) /\
  forall k v, pget k q = Some v -> ~ In k ["vtn_id"; "response"; "request_id"] -> (k = "ven_id" -> mtruthy v = true) -> pget k p = Some v.
Proof.
  unfold complete. cbn [bind]. eexists. split; [reflexivity|]. intros k v G N T. unfold pget, pset in *.
  assert (N1 : k <> "vtn_id") by (intros ->; apply N; simpl; auto).
  assert (N2 : k <> "response") by (intros ->; apply N; simpl; auto).
  assert (N3 : k <> "request_id") by (intros ->; apply N; simpl; auto).
  rewrite (get_set_other String.eqb String.eqb_eq) by assumption. rewrite (get_set_other String.eqb String.eqb_eq) by assumption.
  destruct (get String.eqb "ven_id" message) as [ven|]; [|now rewrite (get_set_other String.eqb String.eqb_eq)].
  destruct (mtruthy (pget_none "ven_id" (set String.eqb "vtn_id" (Val (c_vtn cfg)) q))) eqn:M.
  - now rewrite (get_set_other String.eqb String.eqb_eq).
  - destruct (string_dec k "ven_id") as [->|NE].
    + exfalso. unfold pget_none, pget in M. rewrite (get_set_other String.eqb String.eqb_eq), G in M by discriminate. rewrite (T eq_refl) in M. discriminate.
    + rewrite (get_set_other String.eqb String.eqb_eq) by assumption. now rewrite (get_set_other String.eqb String.eqb_eq).
Qed.

(** A list of events, which the documentation allows, is an error: the payload
    is the list itself. *)
Theorem C76_list_partial : forall w cfg message l, complete w cfg "oadrPoll" message (poll_result (RList l)) = Raise TypeError.
Proof. reflexivity. Qed.

Theorem C76_list_refuted : ~ C76_full.
Proof.
  intros H.
  destruct (H (mk_w (fun _ => Ok tt) (fun _ => Ok ("", [])) (fun _ => Ok "") (fun _ => Ok tt) (fun _ => Ok tt) (fun _ _ => Ok "") (fun _ => Ok tt) "")
              (mk_cfg SNone None None false [] (fun _ _ => Ok HNone)) [] (RList []) (or_list [])) as (t & p & E & _). discriminate.
Qed.

Theorem C76_conveyed_partial : forall w cfg message r, offered_result r -> (forall l, r <> RList l) ->
  exists t p, complete w cfg "oadrPoll" message (poll_result r) = Ok (t, p) /\ conveys r t p.
Proof.
  intros w cfg message r O N. destruct O as [|n|n|l|t q]; cbn [poll_result].
  - destruct (complete_get w cfg "oadrPoll" message "oadrResponse" []) as (p & E & _). exists "oadrResponse", p. split; [exact E|constructor].
  - destruct (complete_get w cfg "oadrPoll" message "oadrDistributeEvent" [("events", Opaque n)]) as (p & E & K). eexists _, p. split; [exact E|].
    constructor. apply K; [reflexivity| |discriminate]. simpl. intuition discriminate.
  - destruct (complete_get w cfg "oadrPoll" message "oadrDistributeEvent" [("events", Opaque n)]) as (p & E & K). eexists _, p. split; [exact E|].
    constructor. apply K; [reflexivity| |discriminate]. simpl. intuition discriminate.
  - destruct (N l eq_refl).
  - destruct (complete_get w cfg "oadrPoll" message t q) as (p & E & K). exists t, p. split; [exact E|]. constructor. exact K.
Qed.

Example C76_example :
  let w := mk_w (fun _ => Ok tt) (fun _ => Ok ("", [])) (fun _ => Ok "") (fun _ => Ok tt) (fun _ => Ok tt) (fun _ _ => Ok "") (fun _ => Ok tt) "new" in
  let cfg := mk_cfg (SStr "vtn") None None false [] (fun _ _ => Ok HNone) in
  complete w cfg "oadrPoll" [("ven_id", Val (SStr "v"))] (poll_result (REvent 4)) =
  Ok ("oadrDistributeEvent", [("events", Opaque 4); ("vtn_id", Val (SStr "vtn")); ("ven_id", Val (SStr "v")); ("response", Resp 200 "OK" (Some none)); ("request_id", Val (SStr "new"))]).
Proof. reflexivity. Qed.

Print Assumptions C75_who_partial.
Print Assumptions C75_used_iff_partial.
Print Assumptions C75_never_refuted.
Print Assumptions C75_names_partial.
Print Assumptions C75_unknown_partial.
Print Assumptions C75_queue_partial.
Print Assumptions C76_list_partial.
Print Assumptions C76_list_refuted.
Print Assumptions C76_conveyed_partial.
