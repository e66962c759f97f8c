(** What a VEN makes of the answers to its polls that the schema allows. *)
From Coq Require Import ZArith String Ascii List Bool Lia Arith.
From Verif.Base Require Import Result Dict PyStr ListExtra.
From Verif.Model Require Import Duration DateTime Text Normalize Xml XmlText Schema SchemaTypes.
From Verif.Model Require Import Polled.
From Verif.Spec Require Import Timestamp TextSpec MessageSpec ReadableSpec ClientEventSpec PolledSpec.
From Verif.Proofs Require Import DateTimeProofs TextProofs NormalizeProofs CalmProofs ReadableProofs MemberProofs EventMemberProofs PolledProofs ReactionProofs.
From Verif.Proofs Require UnnamedProofs.
Import ListNotations.
Local Open Scope string_scope.

Section Messages.
Context (uri : string -> bool) (num : numbers).
Local Notation nz := (normalize num).
Local Notation valid' := (valid uri (fun _ => false)).
Local Notation carried := (carried num).

(** ** oadrDistributeEvent *)
Definition upright (P : Prop) (u : val) : Prop := P -> worded u /\ exists s, u = VStr s /\ ~ lower_case s.
Definition quiet_keys : list string := ["response"; "request_id"; "vtn_id"].
Definition quiet_fields (P : Prop) : list field := [a_scalar "request_id" anything; a_scalar "vtn_id" (upright P)].
Definition news_keys : list string := "event" :: "events" :: quiet_keys.
Definition news_fields (Z P : Prop) : list field := a_events Z :: quiet_fields P.
Lemma carried_quiet P : Forall carried (quiet_fields P).
Proof.
  constructor; [now apply carried_scalar|]. constructor; [|constructor]. apply carried_scalar; [reflexivity | reflexivity|]. intros u w _ Q I HP. rewrite (worded_stays num "vtn_id" u w eq_refl eq_refl (proj1 (Q HP)) I). exact (Q HP).
Qed.
Lemma carried_news Z P : Forall carried (news_fields Z P).
Proof. constructor; [apply carried_events | apply carried_quiet]. Qed.
Lemma distribute_of (Z W P : Prop) m : everywhere (nice Z W) m -> (P -> everywhere vtn_in_words m) -> valid' m oadr_oadrDistributeEventType = true ->
  like quiet_keys (quiet_fields P) (V m) \/ like news_keys (news_fields Z P) (V m).
Proof.
  destruct m as [n a t cs]. intros EV EP H. unfold oadr_oadrDistributeEventType in H. pose proof (fun U R => shaped_required uri _ _ n a t cs U R H) as X. destruct (X eq_refl eq_refl) as (d & E & S). clear X. rewrite E.
  assert (F : Forall (has d) (quiet_fields P)).
  { constructor; [|constructor; [|constructor]].
    - eapply (has_scalar uri _ cs d "request_id" anything (in_pyld "requestID") (Simple [] Text) S); try reflexivity; intros c _ _ _; exact I.
    - eapply (has_scalar uri _ cs d "vtn_id" (upright P) (in_ei "vtnID") (Simple [] Text) S); try reflexivity. intros c J NM VC HP.
      destruct (scalar_value uri c (Simple [] Text) eq_refl VC) as (n' & s & -> & ->). destruct (everywhere_here _ _ (everywhere_in _ _ _ _ _ _ (EP HP) J) NM) as [IW NL].
      pose proof (IW (flatten_xml s) (flatten_flattening s)) as (A & B & C & D). pose proof (NL (flatten_xml s) (flatten_flattening s)) as L. unfold text_val.
      destruct (flatten_xml s) as [|ch r] eqn:FE; [now contradiction A|]. split; [|now exists (String ch r)]. exists (String ch r). repeat (split; [assumption || reflexivity|]). destruct (looks_float (String ch r)) eqn:LF; [|reflexivity]. exfalso. apply D. now apply looks_float_spec. }
  destruct (named_or_not (in_oadr "oadrEvent") cs) as [(c0 & I0 & N0)|NO].
  - right. exists d. split; [reflexivity|]. split; [apply (shaped_only uri _ cs d news_keys S); reflexivity|]. constructor; [|exact F].
    pose proof (held_by uri _ cs d c0 S eq_refl I0) as HE. rewrite N0 in HE. apply (held_has uri _ cs d (a_events Z) (in_oadr "oadrEvent") oadr_oadrDistributeEventType_oadrEvent S HE); [reflexivity | reflexivity|].
    intros l NE A B. cbn [f_kind a_events]. split; [intros _ | discriminate]. apply all_of; [exact NE | | intros v; exact (proj1 (steady_container num Z) v)].
    intros c J. destruct (A c J) as (J2 & _ & VC). exact (container_of uri num Z W c (everywhere_in _ _ _ _ _ c EV J2) VC).
  - left. exists d. split; [reflexivity|]. split; [|exact F]. apply (only_without uri _ cs d quiet_keys (in_oadr "oadrEvent") S); [reflexivity | exact NO].
Qed.

(** ** oadrCreateReport and oadrRegisteredReport *)
Definition create_keys : list string := ["request_id"; "report_request"; "report_requests"; "ven_id"].
Definition create_fields (W : Prop) : list field := [a_scalar "request_id" anything; a_list "report_request" (request W) (request_read W)].
Lemma carried_create W : Forall carried (create_fields W).
Proof. constructor; [now apply carried_scalar|]. constructor; [|constructor]. apply carried_list; [now left | apply steady_request | apply becomes_request]. Qed.
Lemma create_of (Z W : Prop) m : everywhere (nice Z W) m -> valid' m oadr_oadrCreateReportType = true -> like create_keys (create_fields W) (V m).
Proof.
  destruct m as [n a t cs]. intros EV H. unfold oadr_oadrCreateReportType in H. eapply like_of; [| |exact H| |]; [reflexivity | reflexivity | reflexivity|]. intros d S. constructor; [|constructor; [|constructor]].
  - eapply (has_scalar uri _ cs d "request_id" anything (in_pyld "requestID") (Simple [] Text) S); try reflexivity; intros c _ _ _; exact I.
  - eapply (has_list uri _ cs d "report_request" (request W) (request_read W) (in_oadr "oadrReportRequest") oadr_oadrReportRequestType S); try reflexivity. { intros v R. exact (proj1 (steady_request num W) v R). }
    intros c J _ VC. exact (request_of uri num Z W c (everywhere_in _ _ _ _ _ c EV J) VC).
Qed.
Definition response_keys : list string := ["response_code"; "response_description"; "request_id"].
Definition response_fields : list field := [a_scalar "response_code" anything; a_scalar "request_id" anything].
Definition response (v : val) : Prop := like response_keys response_fields v.
Lemma carried_response : Forall carried response_fields.
Proof. constructor; [now apply carried_scalar|]. constructor; [now apply carried_scalar | constructor]. Qed.
Lemma response_of c : valid' c ei_EiResponseType = true -> response (V c).
Proof.
  destruct c as [n a t cs]. intros H. unfold ei_EiResponseType in H. eapply like_of; [| |exact H| |]; [reflexivity | reflexivity | reflexivity|]. intros d S. constructor; [|constructor; [|constructor]].
  - eapply (has_scalar uri _ cs d "response_code" anything (in_ei "responseCode") (Simple [] ei_ResponseCodeType) S); try reflexivity; intros c _ _ _; exact I.
  - eapply (has_scalar uri _ cs d "request_id" anything (in_pyld "requestID") (Simple [] Text) S); try reflexivity; intros c _ _ _; exact I.
Qed.
Definition a_response : field := a_dict "response" response (settled response_keys response_fields).
Lemma carried_a_response : carried a_response.
Proof.
  apply carried_dict; [now left | reflexivity | | |].
  - apply steady_like; [reflexivity | apply carried_response | reflexivity].
  - apply becomes_settled; [reflexivity | apply carried_response | reflexivity].
  - intros m x y P N. apply (like_compact num response_keys response_fields m x y (a_scalar "response_code" anything) (a_scalar "request_id" anything)); [reflexivity | apply carried_response | reflexivity | now left | right; now left | discriminate | reflexivity | exact P | exact N].
Qed.
Definition plain_keys : list string := ["response"; "ven_id"].
Definition asked_keys : list string := ["response"; "report_request"; "report_requests"; "ven_id"].
Definition asked_fields (W : Prop) : list field := [a_response; a_list "report_request" (request W) (request_read W)].
Lemma carried_asked W : Forall carried (asked_fields W).
Proof. constructor; [apply carried_a_response|]. constructor; [|constructor]. apply carried_list; [now left | apply steady_request | apply becomes_request]. Qed.
Lemma registered_of (Z W : Prop) m : everywhere (nice Z W) m -> valid' m oadr_oadrRegisteredReportType = true -> like plain_keys [a_response] (V m) \/ like asked_keys (asked_fields W) (V m).
Proof.
  destruct m as [n a t cs]. intros EV H. unfold oadr_oadrRegisteredReportType in H. pose proof (fun U R => shaped_required uri _ _ n a t cs U R H) as X. destruct (X eq_refl eq_refl) as (d & E & S). clear X. rewrite E.
  assert (F : has d a_response). { eapply (has_one uri _ cs d a_response (in_ei "eiResponse") ei_EiResponseType S); try reflexivity. intros c _ _ VC. exact (response_of c VC). }
  destruct (named_or_not (in_oadr "oadrReportRequest") cs) as [(c0 & I0 & N0)|NO].
  - right. exists d. split; [reflexivity|]. split; [apply (shaped_only uri _ cs d asked_keys S); reflexivity|]. constructor; [exact F|]. constructor; [|constructor].
    pose proof (held_by uri _ cs d c0 S eq_refl I0) as HE. rewrite N0 in HE. apply (held_has uri _ cs d (a_list "report_request" (request W) (request_read W)) (in_oadr "oadrReportRequest") oadr_oadrReportRequestType S HE); [reflexivity | reflexivity|].
    intros l NE A B. cbn [f_kind a_list]. split; [|discriminate]. apply all_of; [exact NE | | intros v R; exact (proj1 (steady_request num W) v R)].
    intros c J. destruct (A c J) as (J2 & _ & VC). exact (request_of uri num Z W c (everywhere_in _ _ _ _ _ c EV J2) VC).
  - left. exists d. split; [reflexivity|]. split; [|constructor; [exact F | constructor]]. apply (only_without uri _ cs d plain_keys (in_oadr "oadrReportRequest") S); [reflexivity | exact NO].
Qed.

(** ** oadrCancelReport *)
Definition cancel_keys : list string := ["request_id"; "report_request_id"; "report_to_follow"; "ven_id"].
Definition cancel_fields (C : Prop) : list field := [a_scalar "request_id" anything; an_id "report_request_id" C; a_scalar "report_to_follow" anything].
Lemma carried_cancel C : Forall carried (cancel_fields C).
Proof. constructor; [now apply carried_scalar|]. constructor; [now apply carried_id|]. constructor; [now apply carried_scalar | constructor]. Qed.
Lemma filter_le {A} (P Q : A -> bool) l : (forall c, In c l -> P c = true -> Q c = true) -> (length (filter P l) <= length (filter Q l))%nat.
Proof.
  induction l as [|c l IH]; intros H; [auto|]. cbn [filter]. specialize (IH (fun c' J => H c' (or_intror J))). pose proof (H c (or_introl eq_refl)) as HC. destruct (P c), (Q c); cbn [length]; try lia; discriminate (HC eq_refl).
Qed.
Lemma cancel_of (C : Prop) m : xml_name m = in_oadr "oadrCancelReport" -> (C -> for_one m) -> valid' m oadr_oadrCancelReportType = true -> like cancel_keys (cancel_fields C) (V m).
Proof.
  destruct m as [n a t cs]. intros NM FO H. unfold oadr_oadrCancelReportType in H. eapply like_of; [| |exact H| |]; [reflexivity | reflexivity | reflexivity|]. intros d S. constructor; [|constructor; [|constructor; [|constructor]]].
  - eapply (has_scalar uri _ cs d "request_id" anything (in_pyld "requestID") (Simple [] Text) S); try reflexivity; intros c _ _ _; exact I.
  - assert (HE : held "report_request_id" d) by (apply (sh_held uri _ cs d "report_request_id" S); reflexivity). split.
    { destruct HE as (k & v & J & M & E). exists k, v. split; [exact J|]. split; [exact M|]. left. now rewrite E. }
    intros k u J M [E|[]]. cbn [f_src an_id] in E. destruct (en_from _ _ (sh_entries _ _ _ _ S) k u J) as [?|(_ & l & NE & EL & ->)]; [congruence|].
    assert (A : forall c, In c cs -> plain_name (xml_name c) = k -> xml_name c = in_ei "reportRequestID" /\ valid' c (Simple [] Text) = true).
    { intros c Jc P. destruct (sh_type _ _ _ _ S c Jc) as (ct & At & Vt). cbn in At. destruct At as [At|[At|[At|[At|[]]]]]; injection At as AN <-; rewrite <- AN in P; subst k; try discriminate E. now split. }
    assert (B : forall c, In c l -> In c cs /\ plain_name (xml_name c) = k) by (intros c Jc; rewrite EL in Jc; apply filter_In in Jc as [J1 J2]; apply String.eqb_eq in J2; now split).
    assert (KE : k = "reportRequestID"). { destruct l as [|c l]; [now contradiction NE|]. destruct (B c (or_introl eq_refl)) as [J1 J2]. destruct (A c J1 J2) as [A1 _]. rewrite A1 in J2. now rewrite <- J2. }
    split; [now rewrite KE|]. cbn [f_kind an_id].
    assert (SC : Forall (fun c => scalar_val (V c) = true) l). { apply Forall_forall. intros c Jc. destruct (B c Jc) as [J1 J2]. destruct (A c J1 J2) as [_ VC]. destruct (scalar_value uri c (Simple [] Text) eq_refl VC) as (n' & s & -> & ->). apply text_val_scalar. }
    assert (LE : C -> (length l <= 1)%nat).
    { intros HC. specialize (FO HC NM). cbv beta iota in FO. rewrite EL. eapply Nat.le_trans; [|exact FO]. apply filter_le. intros c Jc P. apply String.eqb_eq in P. apply String.eqb_eq. exact (proj1 (A c Jc P)). }
    destruct l as [|c1 [|c2 l]]; [now contradiction NE | |].
    + cbn [map one_or_list]. pose proof (Forall_inv SC) as S1. split; [now left | now intros _].
    + split; [right; exists (map V (c1 :: c2 :: l)); split; [reflexivity|]; apply Forall_map; exact SC|]. intros HC. specialize (LE HC). cbn in LE. lia.
  - eapply (has_scalar uri _ cs d "report_to_follow" anything (in_pyld "reportToFollow") (Simple [] Boolean) S); try reflexivity; intros c _ _ _; exact I.
Qed.

(** ** oadrRegisterReport and oadrCancelPartyRegistration *)
Definition register_keys : list string := ["request_id"; "report"; "reports"; "ven_id"; "report_request_id"].
Lemma register_of m : valid' m oadr_oadrRegisterReportType = true -> like register_keys [a_scalar "request_id" anything] (V m).
Proof.
  destruct m as [n a t cs]. intros H. unfold oadr_oadrRegisterReportType in H. eapply like_of; [| |exact H| |]; [vm_compute; reflexivity | reflexivity | vm_compute; reflexivity|]. intros d S. constructor; [|constructor].
  eapply (has_scalar uri _ cs d "request_id" anything (in_pyld "requestID") (Simple [] Text) S); try reflexivity; intros c _ _ _; exact I.
Qed.
Definition leave_keys : list string := ["request_id"; "registration_id"; "ven_id"].
Definition leave_fields : list field := [a_scalar "request_id" anything; a_scalar "registration_id" anything].
Lemma leave_of m : valid' m oadr_oadrCancelPartyRegistrationType = true -> like leave_keys leave_fields (V m).
Proof.
  destruct m as [n a t cs]. intros H. unfold oadr_oadrCancelPartyRegistrationType in H. eapply like_of; [| |exact H| |]; [reflexivity | reflexivity | reflexivity|]. intros d S. constructor; [|constructor; [|constructor]].
  - eapply (has_scalar uri _ cs d "request_id" anything (in_pyld "requestID") (Simple [] Text) S); try reflexivity; intros c _ _ _; exact I.
  - eapply (has_scalar uri _ cs d "registration_id" anything (in_ei "registrationID") (Simple [] ei_UidType) S); try reflexivity; intros c _ _ _; exact I.
Qed.

(** ** Payloads *)
(** A message of a kind has the type of that kind. *)
Lemma message_type k nm T m t : filter (fun a => String.eqb (plain_name (fst a)) k) messages = [(nm, T)] -> In (xml_name m, t) messages -> plain_name (xml_name m) = k -> xml_name m = nm /\ t = T.
Proof.
  intros F J E. assert (X : In (xml_name m, t) (filter (fun a => String.eqb (plain_name (fst a)) k) messages)) by (apply filter_In; split; [exact J | now apply String.eqb_eq]). rewrite F in X. clear F J. destruct X as [X|[]]. pose proof (f_equal fst X) as X1. pose proof (f_equal snd X) as X2. cbn [fst snd] in X1, X2. split; symmetry; assumption.
Qed.
Section Parsed.
Context (s : string) (x object : xml) (depth : nat) (t : string) (p : vdict).
Context (RD : read_expanded s = Some x) (EN : envelope x object) (AL : alone uri object) (PA : parse_message num depth s = Ok (t, p)).
Lemma parsed_like k nm T ks fs : t = k -> filter (fun a => String.eqb (plain_name (fst a)) k) messages = [(nm, T)] -> closed ks = true -> Forall carried fs -> forallb (apart ks) fs = true ->
  (forall m, (exists on oa ot, object = Elem on oa ot [m]) -> xml_name m = nm -> valid' m T = true -> like ks fs (V m)) -> reads ks fs (VDict p).
Proof.
  intros -> F C CA AP H. destruct (UnnamedProofs.parse_object num uri s x object depth k p RD EN AL PA) as (on & oa & ot & m & ty & d & -> & IM & VM & EK & EV & NZ).
  destruct (message_type k nm T m ty F IM (eq_sym EK)) as [N ->]. specialize (H m (ex_intro _ on (ex_intro _ oa (ex_intro _ ot eq_refl))) N VM). rewrite EV in H. exact (becomes_reads num ks fs C CA AP depth d p H NZ).
Qed.
Lemma parsed_either k nm T ks fs ks' fs' : t = k -> filter (fun a => String.eqb (plain_name (fst a)) k) messages = [(nm, T)] -> closed ks = true -> Forall carried fs -> forallb (apart ks) fs = true ->
  closed ks' = true -> Forall carried fs' -> forallb (apart ks') fs' = true ->
  (forall m, (exists on oa ot, object = Elem on oa ot [m]) -> xml_name m = nm -> valid' m T = true -> like ks fs (V m) \/ like ks' fs' (V m)) -> reads ks fs (VDict p) \/ reads ks' fs' (VDict p).
Proof.
  intros -> F C CA AP C' CA' AP' H. destruct (UnnamedProofs.parse_object num uri s x object depth k p RD EN AL PA) as (on & oa & ot & m & ty & d & -> & IM & VM & EK & EV & NZ).
  destruct (message_type k nm T m ty F IM (eq_sym EK)) as [N ->]. specialize (H m (ex_intro _ on (ex_intro _ oa (ex_intro _ ot eq_refl))) N VM). rewrite EV in H. destruct H as [H|H].
  - left. exact (becomes_reads num ks fs C CA AP depth d p H NZ).
  - right. exact (becomes_reads num ks' fs' C' CA' AP' depth d p H NZ).
Qed.
Definition inside (P : xml -> Prop) : Prop := everywhere P object.
Lemma inside_child P m on oa ot : everywhere P object -> object = Elem on oa ot [m] -> everywhere P m.
Proof. intros E ->. exact (everywhere_in _ _ _ _ _ m E (or_introl eq_refl)). Qed.
Lemma nice_all : everywhere (nice (everywhere in_utc object) (everywhere specifier_in_words object)) object.
Proof. apply everywhere_and; apply everywhere_if; auto. Qed.

(** An oadrDistributeEvent *)
Lemma events_parsed : t = "oadrDistributeEvent" -> (vmem "events" p = false \/ exists es q w, vget "events" p = Some (VList es) /\ es <> [] /\ Forall (tells (everywhere in_utc object)) es /\ vget "request_id" p = Some q
    /\ vget "vtn_id" p = Some w /\ (everywhere vtn_in_words object -> proper p)).
Proof.
  intros E. destruct (parsed_either "oadrDistributeEvent" (in_oadr "oadrDistributeEvent") oadr_oadrDistributeEventType quiet_keys (quiet_fields (everywhere vtn_in_words object)) news_keys (news_fields (everywhere in_utc object) (everywhere vtn_in_words object)) E) as [R|R].
  - reflexivity.
  - reflexivity.
  - apply carried_quiet.
  - reflexivity.
  - reflexivity.
  - apply carried_news.
  - reflexivity.
  - intros m (on & oa & ot & EO) _ VM. apply (distribute_of _ (everywhere specifier_in_words object) _ m); [|intros EP; exact (inside_child _ m on oa ot EP EO) | exact VM]. exact (inside_child _ m on oa ot nice_all EO).
  - left. destruct R as (y & [= <-] & _ & O & F). exact (only_not quiet_keys "events" p O F eq_refl).
  - right. destruct R as (y & [= <-] & TH & _). destruct (Forall_inv TH) as (w & G & es & -> & NE & FE). apply Forall_inv_tail in TH. destruct (Forall_inv TH) as (q & GQ & _). apply Forall_inv_tail in TH. destruct (Forall_inv TH) as (vt & GV & SV & UP). cbn [f_out a_events a_scalar] in *.
    exists es, q, vt. split; [exact G|]. split; [exact NE|]. split; [eapply Forall_impl; [|exact FE]; intros e; apply tells_of|]. split; [exact GQ|]. split; [exact GV|]. intros HP. destruct (UP HP) as [_ (str & -> & NL)]. now exists str.
Qed.
(** An oadrCreateReport or oadrRegisteredReport *)
Lemma requests_parsed : t = "oadrCreateReport" -> exists rs q, vget "report_requests" p = Some (VList rs) /\ rs <> [] /\ Forall asking rs /\ vget "request_id" p = Some q
  /\ (everywhere specifier_in_words object -> forall r, In r rs -> in_text (specifier_of r)).
Proof.
  intros E. destruct (parsed_like "oadrCreateReport" (in_oadr "oadrCreateReport") oadr_oadrCreateReportType create_keys (create_fields (everywhere specifier_in_words object)) E) as (y & EY & TH & _).
  - reflexivity.
  - reflexivity.
  - apply carried_create.
  - reflexivity.
  - intros m (on & oa & ot & EO) _ VM. apply (create_of (everywhere in_utc object) _ m); [|exact VM]. exact (inside_child _ m on oa ot nice_all EO).
  - injection EY as <-. destruct (Forall_inv TH) as (q & GQ & _). apply Forall_inv_tail in TH. destruct (Forall_inv TH) as (w & G & rs & -> & NE & FR). cbn [f_out a_list a_scalar] in *. exists rs, q. split; [exact G|]. split; [exact NE|]. split; [|split; [exact GQ|]].
    + eapply Forall_impl; [|exact FR]. intros r K. destruct (asks_of _ r K) as (d & id & sid & ps & A & _). now exists d, id, sid, ps.
    + intros W r J. rewrite Forall_forall in FR. destruct (asks_of _ r (FR r J)) as (d & id & sid & ps & A & HW). rewrite (proj1 (asking_sid r d id sid ps A)). destruct (HW W) as (str & -> & _). now exists str.
Qed.
Lemma registered_parsed : t = "oadrRegisteredReport" -> vmem "report_requests" p = false \/ exists rs d q, vget "report_requests" p = Some (VList rs) /\ rs <> [] /\ Forall asking rs
  /\ vmem "request_id" p = false /\ vget "response" p = Some (VDict d) /\ vget "request_id" d = Some q /\ (everywhere specifier_in_words object -> forall r, In r rs -> in_text (specifier_of r)).
Proof.
  intros E. destruct (parsed_either "oadrRegisteredReport" (in_oadr "oadrRegisteredReport") oadr_oadrRegisteredReportType plain_keys [a_response] asked_keys (asked_fields (everywhere specifier_in_words object)) E) as [R|R].
  - reflexivity.
  - reflexivity.
  - constructor; [apply carried_a_response | constructor].
  - reflexivity.
  - reflexivity.
  - apply carried_asked.
  - reflexivity.
  - intros m (on & oa & ot & EO) _ VM. apply (registered_of (everywhere in_utc object) _ m); [|exact VM]. exact (inside_child _ m on oa ot nice_all EO).
  - left. destruct R as (y & [= <-] & _ & O & F). exact (only_not plain_keys "report_requests" p O F eq_refl).
  - right. destruct R as (y & [= <-] & TH & O & F). destruct (Forall_inv TH) as (re & GR & _ & (d & -> & TD & _)). apply Forall_inv_tail in TH. destruct (Forall_inv TH) as (w & G & rs & -> & NE & FR). cbn [f_out a_list a_response a_dict] in *.
    destruct (Forall_inv (Forall_inv_tail TD)) as (q & GQ & _). exists rs, d, q. split; [exact G|]. split; [exact NE|]. split; [|split; [exact (only_not asked_keys "request_id" p O F eq_refl)|split; [exact GR|split; [exact GQ|]]]].
    + eapply Forall_impl; [|exact FR]. intros r K. destruct (asks_of _ r K) as (d' & id & sid & ps & A & _). now exists d', id, sid, ps.
    + intros W r J. rewrite Forall_forall in FR. destruct (asks_of _ r (FR r J)) as (d' & id & sid & ps & A & HW). rewrite (proj1 (asking_sid r d' id sid ps A)). destruct (HW W) as (str & -> & _). now exists str.
Qed.
Lemma cancel_parsed : t = "oadrCancelReport" -> exists q i f, vget "request_id" p = Some q /\ vget "report_request_id" p = Some i /\ vget "report_to_follow" p = Some f /\ some_id (everywhere for_one object) i.
Proof.
  intros E. destruct (parsed_like "oadrCancelReport" (in_oadr "oadrCancelReport") oadr_oadrCancelReportType cancel_keys (cancel_fields (everywhere for_one object)) E) as (y & EY & TH & _).
  - reflexivity.
  - reflexivity.
  - apply carried_cancel.
  - reflexivity.
  - intros m (on & oa & ot & EO) NM VM. apply (cancel_of _ m NM); [|exact VM]. intros C. exact (everywhere_here _ _ (inside_child _ m on oa ot C EO)).
  - injection EY as <-. destruct (Forall_inv TH) as (q & GQ & _). apply Forall_inv_tail in TH. destruct (Forall_inv TH) as (i & GI & KI). apply Forall_inv_tail in TH. destruct (Forall_inv TH) as (f & GF & _). now exists q, i, f.
Qed.
Lemma register_parsed : t = "oadrRegisterReport" -> exists q, vget "request_id" p = Some q.
Proof.
  intros E. destruct (parsed_like "oadrRegisterReport" (in_oadr "oadrRegisterReport") oadr_oadrRegisterReportType register_keys [a_scalar "request_id" anything] E) as (y & EY & TH & _).
  - reflexivity.
  - reflexivity.
  - constructor; [now apply carried_scalar | constructor].
  - reflexivity.
  - intros m _ _ VM. exact (register_of m VM).
  - injection EY as <-. destruct (Forall_inv TH) as (q & GQ & _). now exists q.
Qed.
Lemma leave_parsed : t = "oadrCancelPartyRegistration" -> exists q i, vget "request_id" p = Some q /\ vget "registration_id" p = Some i.
Proof.
  intros E. destruct (parsed_like "oadrCancelPartyRegistration" (in_oadr "oadrCancelPartyRegistration") oadr_oadrCancelPartyRegistrationType leave_keys leave_fields E) as (y & EY & TH & _).
  - reflexivity.
  - reflexivity.
  - constructor; [now apply carried_scalar|]. constructor; [now apply carried_scalar | constructor].
  - reflexivity.
  - intros m _ _ VM. exact (leave_of m VM).
  - injection EY as <-. destruct (Forall_inv TH) as (q & GQ & _). apply Forall_inv_tail in TH. destruct (Forall_inv TH) as (i & GI & _). now exists q, i.
Qed.
End Parsed.
End Messages.

(** ** What comes of it *)
Section Dealt.
Context (uri : string -> bool) (num : numbers) (v : ven).
Context (s : string) (x object : xml) (depth : nat) (t : string) (p : vdict).
Context (RD : read_expanded s = Some x) (EN : envelope x object) (AL : alone uri object) (PA : parse_message num depth s = Ok (t, p)).

Lemma some_events_of es : vget "events" p = Some (VList es) -> es <> [] -> some_events p = Ok true.
Proof. intros G N. unfold some_events. rewrite G. now destruct es. Qed.
Lemma no_events : vmem "events" p = false -> some_events p = Ok false.
Proof. unfold some_events, vmem, mem, vget. destruct (get _ _ _); [discriminate | reflexivity]. Qed.
Lemma events_answered : t = "oadrDistributeEvent" -> obliging v ->
  ((forall e, In e (events_of p) -> to_answer e -> begins e) ->
     exists c q rs, react v t p = Ok (match rs with [] => Quiet | _ => Responds c q rs end) /\ (rs <> [] -> (c = None <-> proper p) /\ vget "request_id" p = Some q)
       /\ (forall r, In r rs -> exists e, In e (events_of p) /\ to_answer e /\ ~ is_over v e /\ about e r) /\ (forall e, In e (events_of p) -> to_answer e -> ~ is_over v e -> exists r, In r rs /\ about e r))
  /\ ((exists e, In e (events_of p) /\ to_answer e /\ ~ begins e) -> react v t p = Raise AttributeError)
  /\ (everywhere in_utc object -> forall e, In e (events_of p) -> begins e) /\ (everywhere vtn_in_words object -> events_of p <> [] -> proper p).
Proof.
  intros E OB. assert (RE : react v t p = bind (some_events p) (fun b => if b then on_event v (VDict p) else Ok Quiet)) by (now rewrite E).
  destruct (events_parsed uri num s x object depth t p RD EN AL PA E) as [N|(es & q & w & G & NE & TE & GQ & GV & PR)].
  - assert (EO : events_of p = []) by (unfold events_of, vget; unfold vmem, mem in N; destruct (get _ _ _); [discriminate N | reflexivity]). rewrite EO, RE, no_events by exact N. cbn [bind].
    split; [|split; [intros (e & [] & _)|split; [intros _ e [] | now intros _ C]]]. intros _. exists None, VNone, []. split; [reflexivity|]. split; [now intros C|]. split; [intros r [] | intros e []].
  - assert (EO : events_of p = es) by (unfold events_of; now rewrite G). rewrite EO, RE, (some_events_of es G NE). cbn [bind]. destruct (on_events v OB _ p q es G TE GQ) as [A B]. split; [|split; [exact B|split]].
    + intros H. destruct (A H) as (c & rs & R1 & R2 & R3 & R4). exists c, q, rs. split; [exact R1|]. split; [intros _; now split|]. now split.
    + intros U e J. rewrite Forall_forall in TE. exact (timed_begin _ e U (TE e J)).
    + intros U _. exact (PR U).
Qed.
Lemma requests_answered : t = "oadrCreateReport" ->
  ((forall r, In r (requests_of p) -> in_text (specifier_of r)) ->
     exists plans ids q, react v t p = Ok (Creates (if refused plans then 452 else 200) plans ids q) /\ vget "request_id" p = Some q /\ Forall2 for_request (requests_of p) plans /\ map Some ids = map request_id_of (requests_of p))
  /\ ((exists r, In r (requests_of p) /\ ~ in_text (specifier_of r)) -> react v t p = Raise TypeError)
  /\ (everywhere specifier_in_words object -> forall r, In r (requests_of p) -> in_text (specifier_of r)).
Proof.
  intros E. destruct (requests_parsed uri num s x object depth t p RD EN AL PA E) as (rs & q & G & _ & AS & GQ & W).
  assert (VM : vmem "report_requests" p = true) by (unfold vmem, mem; unfold vget in G; now rewrite G).
  assert (RE : react v t p = create_report v (VDict p)) by (unfold react; rewrite E, VM; reflexivity).
  assert (RO : requests_of p = rs) by (unfold requests_of; now rewrite G). rewrite RO, RE. destruct (creates v p rs q G AS (or_introl GQ)) as [A B]. split; [|split; [exact B | exact W]].
  intros T. destruct (A T) as (plans & ids & R1 & R2 & R3). exists plans, ids, q. now repeat split.
Qed.
Lemma registered_answered : t = "oadrRegisteredReport" ->
  ((forall r, In r (requests_of p) -> in_text (specifier_of r)) ->
     (requests_of p = [] /\ react_registered v p = Ok Quiet)
     \/ exists plans ids q, react_registered v p = Ok (Creates (if refused plans then 452 else 200) plans ids q) /\ (exists d, vget "response" p = Some d /\ member "request_id" d = Some q)
          /\ Forall2 for_request (requests_of p) plans /\ map Some ids = map request_id_of (requests_of p))
  /\ ((exists r, In r (requests_of p) /\ ~ in_text (specifier_of r)) -> react_registered v p = Raise TypeError)
  /\ (everywhere specifier_in_words object -> forall r, In r (requests_of p) -> in_text (specifier_of r)).
Proof.
  intros E. unfold react_registered. destruct (registered_parsed uri num s x object depth t p RD EN AL PA E) as [N|(rs & d & q & G & _ & AS & NQ & GR & GQ & W)].
  - assert (RO : requests_of p = []) by (unfold requests_of, vget; unfold vmem, mem in N; destruct (get _ _ _); [discriminate N | reflexivity]). rewrite RO, N. split; [intros _; left; now split|]. split; [intros (r & [] & _) | intros _ r []].
  - assert (VM : vmem "report_requests" p = true) by (unfold vmem, mem; unfold vget in G; now rewrite G). rewrite VM.
    assert (RO : requests_of p = rs) by (unfold requests_of; now rewrite G). rewrite RO. destruct (creates v p rs q G AS) as [A B]; [right; split; [exact NQ|]; now exists d|]. split; [|split; [exact B | exact W]].
    intros T. right. destruct (A T) as (plans & ids & R1 & R2 & R3). exists plans, ids, q. split; [exact R1|]. split; [|now split]. exists (VDict d). now split.
Qed.
Lemma cancel_answered : t = "oadrCancelReport" ->
  exists q i f, vget "request_id" p = Some q /\ vget "report_request_id" p = Some i /\ vget "report_to_follow" p = Some f
    /\ react v t p = Ok (if existsb (same i) (v_requests v) then Cancels i q (same f (VBool true) || same f (VInt 1)) else Missing i) /\ (everywhere for_one object -> forall l, i <> VList l).
Proof.
  intros E. destruct (cancel_parsed uri num s x object depth t p RD EN AL PA E) as (q & i & f & GQ & GI & GF & SI & SC). exists q, i, f. repeat (split; [assumption|]). split.
  - rewrite E. change (react v "oadrCancelReport" p) with (cancel_report v (VDict p)). unfold cancel_report. rewrite (item_get _ _ _ GI). cbn [bind]. destruct (existsb (same i) (v_requests v)); [|reflexivity]. rewrite (item_get _ _ _ GQ). cbn [bind]. rewrite (item_get _ _ _ GF). reflexivity.
  - intros C l ->. discriminate (SC C).
Qed.
Lemma leave_answered : t = "oadrCancelPartyRegistration" -> exists r, react v t p = Ok r /\ (forall e q rs, r <> Responds e q rs).
Proof.
  intros E. destruct (leave_parsed uri num s x object depth t p RD EN AL PA E) as (q & i & GQ & GI). rewrite E. change (react v "oadrCancelPartyRegistration" p) with (cancel_registration v (VDict p)). unfold cancel_registration, Polled.within.
  assert (VM : vmem "registration_id" p = true) by (unfold vmem, mem; unfold vget in GI; now rewrite GI). rewrite VM, (item_get _ _ _ GI). cbn [bind negb]. rewrite (item_get _ _ _ GQ). cbn [bind].
  destruct (v_registration v); try (eexists; split; [reflexivity|]; destruct (same _ i); discriminate). eexists. split; [reflexivity | discriminate].
Qed.
Theorem dealt_with : obliging v -> t <> "oadrUpdateReport" -> everywhere in_utc object -> everywhere specifier_in_words object -> everywhere vtn_in_words object -> everywhere for_one object -> dealt v t p.
Proof.
  intros OB NU EU ES EV EO. unfold dealt.
  destruct (string_dec t "oadrDistributeEvent") as [E|N1].
  { destruct (events_answered E OB) as (A & _ & U & P). destruct (A (fun e J _ => U EU e J)) as (c & q & rs & R & C & R1 & _). eexists. split; [exact R|]. split; [|intros C'; rewrite E in C'; discriminate C'].
    intros ex q' rs' Q. destruct rs as [|r rs]; [discriminate Q|]. injection Q as -> _ _. destruct (C ltac:(discriminate)) as [C1 _]. assert (PP : proper p). { apply P; [exact EV|]. destruct (R1 r (or_introl eq_refl)) as (e & J & _). destruct (events_of p); [destruct J | discriminate]. } apply C1 in PP. discriminate PP. }
  destruct (string_dec t "oadrCreateReport") as [E|N2].
  { destruct (requests_answered E) as (A & _ & U). destruct (A (U ES)) as (plans & ids & q & R & _). eexists. split; [exact R|]. split; [discriminate|]. intros C'. rewrite E in C'. discriminate C'. }
  destruct (string_dec t "oadrCancelReport") as [E|N3].
  { destruct (cancel_answered E) as (q & i & f & GQ & GI & GF & R & NL). eexists. split; [exact R|]. split; [destruct (existsb _ _); discriminate|]. intros _ id [[G _]|(l & G & _)] J.
    - rewrite GI in G. injection G as <-. assert (EX : existsb (same i) (v_requests v) = true) by (apply existsb_exists; exists i; split; [exact J | apply same_refl]). rewrite EX. eauto.
    - rewrite GI in G. injection G as ->. now contradiction (NL EO l). }
  destruct (string_dec t "oadrCancelPartyRegistration") as [E|N4].
  { destruct (leave_answered E) as (r & R & NR). exists r. split; [exact R|]. split; [intros; apply NR|]. intros C'. rewrite E in C'. discriminate C'. }
  destruct (string_dec t "oadrRegisterReport") as [E|N5].
  { destruct (register_parsed uri num s x object depth t p RD EN AL PA E) as (q & GQ). exists (Declines q). split; [|split; [discriminate|intros C'; rewrite E in C'; discriminate C']]. rewrite E. change (react v "oadrRegisterReport" p) with (bind (item "request_id" (VDict p)) (fun q => Ok (Declines q))). now rewrite (item_get _ _ _ GQ). }
  unfold react. rewrite (proj2 (String.eqb_neq _ _) N1), (proj2 (String.eqb_neq _ _) N2), (proj2 (String.eqb_neq _ _) N3), (proj2 (String.eqb_neq _ _) N4), (proj2 (String.eqb_neq _ _) N5), (proj2 (String.eqb_neq _ _) NU).
  destruct (String.eqb t "oadrResponse"); [exists Quiet; split; [reflexivity|]; split; [discriminate | now intros C']|]. destruct (String.eqb t "oadrRequestReregistration"); eexists; (split; [reflexivity|]; split; [discriminate | now intros C']).
Qed.
End Dealt.
