(** C95: every message that a VEN sends reaches the function of the VTN that is
    there for it. *)
From Coq Require Import ZArith String Ascii List Bool.
From Verif.Base Require Import Result Dict PyStr.
From Verif.Model Require Import VtnService Enums Routes.
From Verif.Spec Require Import RouteSpec.
From Verif.Proofs Require Import RouteProofs.
Import ListNotations.
Local Open Scope string_scope.

(** The VEN has been told where the VTN is, up to slashes at the end; then each
    of its messages is handled by a method that is marked for it, or is an
    answer, which needs no handling. *)
Definition C95_full : Prop := forall url scheme host path prefix table service message,
  located url scheme host path -> same_place path prefix -> routes prefix = Ok table -> In (service, message) sends ->
  exists p, path_of (request_url url service) = Some p
    /\ (message = "oadrResponse" /\ deliver table p message = EmptyAnswer \/ exists c method, In c services /\ marked c method message /\ deliver table p message = HandledBy method).

(** The VTN can be set up if its prefix starts with a slash or is empty. *)
Theorem C95_routes prefix : (exists table, routes prefix = Ok table) <-> prefix = "" \/ exists r, prefix = "/" ++ r.
Proof. apply routes_ok. Qed.

(** A request reaches a service if the VEN has the URL of the VTN, up to slashes
    at the end, and the service of that name is there; and only then. *)
Theorem C95_reached url scheme host path prefix table service c : located url scheme host path -> routes prefix = Ok table -> ~ has_slash service ->
  ((exists p, path_of (request_url url service) = Some p /\ get String.eqb p table = Some c) <-> same_place path prefix /\ In c services /\ sc_name c = service).
Proof. apply reached. Qed.

(** The handler of a message is the method that is marked for it - the last one
    in alphabetical order, if there are more. *)
Theorem C95_handlers c message method : NoDup (map fst (sc_methods c)) ->
  (get String.eqb message (handlers c) = Some method <-> marked c method message /\ forall m, marked c m message -> String.leb m method = true).
Proof. apply handlers_spec. Qed.

(** A service with these handlers calls the handler, or says that the message is
    for another endpoint. *)
Theorem C95_service w cfg c message payload : (forall h, w_hook w h = Ok tt) -> c_types cfg = map fst (handlers c) ->
  (effects (handle_message w cfg message payload) = [Handled message payload] <-> exists method, get String.eqb message (handlers c) = Some method)
  /\ (get String.eqb message (handlers c) = None -> effects (handle_message w cfg message payload) = []
       /\ ended (handle_message w cfg message payload) = Ok ("oadrResponse", [("response", Resp 459 not_supported None)])).
Proof.
  intros H T. assert (I : existsb (String.eqb message) (c_types cfg) = match get String.eqb message (handlers c) with Some _ => true | None => false end).
  { rewrite T. generalize (handlers c). clear. intros d. induction d as [|[k v] d IH]; [reflexivity|]. cbn [map fst existsb get]. destruct (String.eqb message k); [reflexivity|exact IH]. }
  unfold handle_message. rewrite I. unfold cbind at 1. cbn [ended effects lift mtype]. rewrite H.
  destruct (get String.eqb message (handlers c)) as [m|].
  - split; [|discriminate]. split; [eauto|]. intros _. unfold cbind at 2. cbn [ended effects]. destruct (c_handle cfg message payload) as [h|e]; [|reflexivity].
    cbn [effects lift]. destruct (complete w cfg message payload h); unfold cbind; cbn [ended effects lift app]; rewrite ?H; reflexivity.
  - unfold cbind. cbn [ended effects lift app]. rewrite H. cbn [ended effects lift app]. split; [split; [discriminate|intros (m & E); discriminate E]|]. intros _. split; reflexivity.
Qed.

(** Every message is sent to the service to which it belongs. *)
Theorem C95_belongs service message : In (service, message) sends -> belongs service message.
Proof.
  intros I. assert (H : forallb (fun sm => existsb (fun e => String.eqb (fst sm) (fst e) && existsb (String.eqb (snd sm)) (snd e)) standard) sends = true) by reflexivity.
  rewrite forallb_forall in H. specialize (H _ I). apply existsb_exists in H as ((s & l) & J & K). cbn [fst snd] in K. apply andb_true_iff in K as [A B]. apply String.eqb_eq in A as <-.
  apply existsb_exists in B as (m & M & E). apply String.eqb_eq in E as <-. now exists l.
Qed.

(** What becomes of the messages. *)
Definition lost : list (string * string) :=
  [("EiOpt", "oadrCreateOpt"); ("EiOpt", "oadrCancelOpt"); ("EiReport", "oadrCanceledReport"); ("EiRegisterParty", "oadrCanceledPartyRegistration")].
Lemma delivered url scheme host path prefix table service : located url scheme host path -> same_place path prefix -> routes prefix = Ok table -> ~ has_slash service ->
  exists p, path_of (request_url url service) = Some p /\ get String.eqb p table = List.find (fun c => String.eqb (sc_name c) service) services.
Proof.
  intros L S R N. exists (rstrip path ++ "/" ++ service). assert (P := request_path url scheme host path service L). split; [exact P|].
  destruct (List.find (fun c => String.eqb (sc_name c) service) services) as [c|] eqn:F.
  - apply find_some in F as (I & E). apply String.eqb_eq in E. destruct (proj2 (reached url scheme host path prefix table service c L R N)) as (p & Q & G); [auto|]. congruence.
  - destruct (get String.eqb (rstrip path ++ "/" ++ service) table) as [c|] eqn:G; [|reflexivity]. destruct (proj1 (reached url scheme host path prefix table service c L R N)) as (_ & I & E); [eauto|].
    apply (find_none _ _ F) in I. now rewrite E, String.eqb_refl in I.
Qed.
Ltac here c := exists c; refine (ex_intro _ _ (conj _ (conj _ eq_refl))); cbn; tauto.
Theorem C95_delivered_partial url scheme host path prefix table service message :
  located url scheme host path -> same_place path prefix -> routes prefix = Ok table -> In (service, message) sends ->
  exists p, path_of (request_url url service) = Some p
    /\ ((message = "oadrResponse" /\ deliver table p message = EmptyAnswer \/ exists c method, In c services /\ marked c method message /\ deliver table p message = HandledBy method)
        <-> ~ In (service, message) lost)
    /\ (service = "EiOpt" -> deliver table p message = NotFound)
    /\ (In (service, message) lost -> service <> "EiOpt" -> deliver table p message = NotForThisEndpoint).
Proof.
  intros L S R I. destruct (delivered url scheme host path prefix table service L S R (sends_names _ _ I)) as (p & P & G). exists p. split; [exact P|]. unfold deliver. rewrite G. clear - I.
  assert (K : forall a b c d : Prop, a -> b -> c -> d -> (a <-> b) /\ c /\ d) by tauto. assert (K' : forall a b c d : Prop, ~ a -> ~ b -> c -> d -> (a <-> b) /\ c /\ d) by tauto.
  cbn in I. repeat (destruct I as [[= <- <-]|I];
    [first [ apply K; [right; first [here EventService|here ReportService|here PollService|here RegistrationService]|intros J; cbn in J; intuition congruence|discriminate|intros J; exfalso; cbn in J; intuition congruence]
           | apply K; [left; split; reflexivity|intros J; cbn in J; intuition congruence|discriminate|intros J; exfalso; cbn in J; intuition congruence]
           | apply K'; [intros [(_ & E)|(c & m & _ & _ & E)]; discriminate E|intros J; apply J; cbn; tauto|intros _; reflexivity|intros _ J; now elim J]
           | apply K'; [intros [(_ & E)|(c & m & _ & _ & E)]; discriminate E|intros J; apply J; cbn; tauto|discriminate|intros _ _; reflexivity] ] |]).
  destruct I.
Qed.

(** The claim is false: a VTN of this package has no service for opts, and it
    refuses the confirmation of a cancelled report or registration. *)
Definition an_url : string := "http://vtn.example:8080/OpenADR2/Simple/2.0b/".
Lemma letters (P : ascii -> Prop) s : (forall c, letter c -> P c) -> all_chars (fun c => existsb (Ascii.eqb c) (list_ascii_of_string "abcdefghijklmnopqrstuvwxyzABCDEFGHIJKLMNOPQRSTUVWXYZ0123456789-_~") = true \/ P c) s -> all_chars P s.
Proof.
  intros L. induction s as [|c s IH]; cbn [all_chars]; [trivial|]. intros ([H|H] & R); (split; [|now apply IH]); [|exact H]. apply L. unfold letter. apply existsb_exists in H as (d & I & E). now apply Ascii.eqb_eq in E as ->.
Qed.
Lemma an_url_located : located an_url "http" "vtn.example:8080" "/OpenADR2/Simple/2.0b/".
Proof.
  split; [reflexivity|]. split; [apply letters; [trivial|cbn; tauto]|]. split; [split; [discriminate|apply letters; [now left|cbn; intuition]]|]. split; [apply letters; [now left|unfold path_char; cbn; intuition]|]. split; [|right; now exists "OpenADR2/Simple/2.0b/"].
  intros a d b D E _ B. do 24 (destruct a as [|? a]; [destruct D as [->| ->]; [try discriminate E; injection E as E; subst b; destruct B as [B|(b' & B)]; discriminate B|discriminate E]|try discriminate E; injection E as _ E]).
Qed.
Theorem C95_refuted : ~ C95_full.
Proof.
  intros F. destruct (routes "/OpenADR2/Simple/2.0b") as [t|] eqn:R; [|discriminate R]. assert (S : same_place "/OpenADR2/Simple/2.0b/" "/OpenADR2/Simple/2.0b") by (exists "/OpenADR2/Simple/2.0b", 1, 0; split; reflexivity).
  assert (I : In ("EiReport", "oadrCanceledReport") sends) by (cbn; tauto).
  destruct (F _ _ _ _ _ _ _ _ an_url_located S R I) as (p & P & H). destruct (C95_delivered_partial _ _ _ _ _ _ _ _ an_url_located S R I) as (q & Q & G & _). rewrite P in Q. injection Q as <-. apply G in H. apply H. cbn. tauto.
Qed.

(** An update of reports arrives at the method for it, with slashes or without;
    a VTN elsewhere does not get it. *)
Example C95_example : match routes "/OpenADR2/Simple/2.0b" with
  | Ok t => map (fun url => match path_of (request_url url "EiReport") with Some p => deliver t p "oadrUpdateReport" | None => NotFound end)
      [an_url; "http://vtn.example:8080/OpenADR2/Simple/2.0b"; "http://vtn.example:8080/OpenADR2/Simple/2.0b//"; "http://vtn.example:8080/OpenADR2"; "http://vtn.example:8080"]
  | Raise _ => []
  end = [HandledBy "update_report"; HandledBy "update_report"; HandledBy "update_report"; NotFound; NotFound].
Proof. reflexivity. Qed.
(** With two methods for a message. *)
Example C95_example_two : handlers (mk_class "EiEvent" [("b", Some "oadrRequestEvent"); ("c", None); ("a", Some "oadrRequestEvent")]) = [("oadrRequestEvent", "b")].
Proof. reflexivity. Qed.
Example C95_example_setup : routes "OpenADR2" = Raise ValueError /\ exists t, routes "/" = Ok t.
Proof. split; [reflexivity|eexists; reflexivity]. Qed.

Print Assumptions C95_routes.
Print Assumptions C95_reached.
Print Assumptions C95_handlers.
Print Assumptions C95_service.
Print Assumptions C95_belongs.
Print Assumptions C95_delivered_partial.
Print Assumptions C95_refuted.
