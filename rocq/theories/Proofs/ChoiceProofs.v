(** Enumerations (Model/Enums.v), and the choices of the package and of the
    schema (Spec/ChoiceSpec.v). *)
From Coq Require Import ZArith String Ascii List Bool Lia Sorted.
From Verif.Base Require Import Result Dict PyStr.
From Verif.Model Require Import Objects EventTime EventService Server Constructors Preflight Measurements ClientReports Xml Schema SchemaTypes Enums.
From Verif.Spec Require Import AcceptedSpec ChoiceSpec.
From Verif.Proofs Require Import RegexProofs SchemaValueProofs.
Import ListNotations.
Local Open Scope string_scope.

(** ** Members of a class *)
Lemma insert_in x y l : In y (insert x l) <-> y = x \/ In y l.
Proof.
  induction l as [|z l IH]; cbn [insert]; [cbn; intuition|]. destruct (String.leb x z); cbn [In]; [intuition|]. rewrite IH. cbn [In]. intuition.
Qed.
Lemma sorted_in y l : In y (sorted l) <-> In y l.
Proof. induction l as [|x l IH]; [reflexivity|]. unfold sorted in *. cbn [fold_right]. rewrite insert_in, IH. cbn [In]. intuition. Qed.
Lemma insert_sorted x l : Sorted (fun a b => String.leb a b = true) l -> Sorted (fun a b => String.leb a b = true) (insert x l).
Proof.
  induction 1 as [|y l S IH H]; cbn [insert]; [repeat constructor|]. destruct (String.leb x y) eqn:E.
  - constructor; [constructor; assumption|]. now constructor.
  - constructor; [exact IH|]. assert (Y : String.leb y x = true) by (destruct (String.leb_total x y) as [T|T]; [congruence|exact T]).
    destruct l as [|z l]; cbn [insert]; [now constructor|]. destruct (String.leb x z); constructor; [exact Y|]. now inversion H.
Qed.
Lemma sorted_sorted l : Sorted (fun a b => String.leb a b = true) (sorted l).
Proof. induction l as [|x l IH]; [constructor|]. unfold sorted in *. cbn [fold_right]. now apply insert_sorted. Qed.

Lemma get_some_in (d : dict string string) k v : get String.eqb k d = Some v -> In k (map fst d).
Proof.
  induction d as [|[a b] d IH]; cbn [get map fst]; [discriminate|]. destruct (String.eqb k a) eqn:E; [apply String.eqb_eq in E; subst; intros _; now left|]. intros G. right. now apply IH.
Qed.
Lemma in_get (d : dict string string) k : In k (map fst d) -> exists v, get String.eqb k d = Some v.
Proof.
  induction d as [|[a b] d IH]; cbn [get map fst In]; [tauto|]. destruct (String.eqb k a) eqn:E; [eauto|]. intros [<-|I]; [now rewrite String.eqb_refl in E|now apply IH].
Qed.
Lemma members_spec b k : In k (members b) <-> (exists v, get String.eqb k (namespace b) = Some v) /\ ~ In k names_of_metaclass /\ startswith "_" k = false.
Proof.
  unfold members. rewrite sorted_in, filter_In, andb_true_iff, !negb_true_iff. split.
  - intros (I & N & U). repeat split; [now apply in_get| |exact U]. intros J. apply existsb_In in J. congruence.
  - intros ((v & G) & N & U). repeat split; [now apply get_some_in in G| |exact U]. destruct (existsb (String.eqb k) names_of_metaclass) eqn:E; [|reflexivity]. apply existsb_In in E. contradiction.
Qed.
Lemma values_spec b v : In v (values b) <-> exists k, get String.eqb k (namespace b) = Some v /\ ~ In k names_of_metaclass /\ startswith "_" k = false.
Proof.
  unfold values. rewrite in_flat_map. split.
  - intros (k & M & I). apply members_spec in M as (_ & N & U). destruct (get String.eqb k (namespace b)) as [w|] eqn:G; [|destruct I]. destruct I as [<-|[]]. eauto.
  - intros (k & G & N & U). exists k. split; [apply members_spec; eauto|]. rewrite G. now left.
Qed.

(** ** White space in values *)
Lemma join_from w r : w <> "" -> exists t, join " " (words_from w r) = w ++ t.
Proof.
  revert w. induction r as [|c r IH]; intros w N; cbn [words_from].
  - destruct w; [contradiction|]. exists "". now rewrite str_app_nil.
  - destruct (space c).
    + destruct w as [|a w]; [contradiction|]. cbn [app]. destruct (words_from "" r) as [|u us].
      * exists "". cbn [join]. now rewrite str_app_nil.
      * exists (" " ++ join " " (u :: us)). reflexivity.
    + destruct (IH (w ++ String c "")) as (t & E); [destruct w; discriminate|]. exists (String c t). rewrite E, str_app_assoc. reflexivity.
Qed.
Lemma not_spacing c : space c = false <-> ~ spacing c.
Proof. rewrite <- space_spec. destruct (space c); intuition congruence. Qed.
Lemma own_collapse s : startswith "x-" s = true -> (own_value (collapse s) <-> own_value s).
Proof.
  intros X. apply startswith_spec in X as (r' & ->). change ("x-" ++ r') with (String "x" (String "-" r')). rename r' into s.
  unfold collapse, words. change (words_from "" (String "x" (String "-" s))) with (words_from "x-" s). split.
  - destruct s as [|c s]; [intros (c & r & E & _); discriminate E|]. cbn [words_from]. destruct (space c) eqn:S.
    + cbn [app]. intros (d & r & E & N). exfalso. destruct (words_from "" s) as [|u us]; cbn [join append] in E; [discriminate E|]. injection E as <- _. apply N. cbv. auto.
    + intros _. exists c, s. split; [reflexivity|]. now apply not_spacing.
  - intros (c & r & E & N). injection E as ->. cbn [words_from]. apply not_spacing in N as S. rewrite S. destruct (join_from ("x-" ++ String c "") r) as (t & ->); [discriminate|].
    exists c, t. split; [reflexivity|exact N].
Qed.
Lemma own_nameless s : startswith "x-" s = true -> (own_value s <-> ~ nameless s).
Proof.
  intros X. apply startswith_spec in X as (r' & ->). change ("x-" ++ r') with (String "x" (String "-" r')). rename r' into s. split.
  - intros (c & r & E & N) [F|(d & u & F & S)]; rewrite E in F; [discriminate|]. injection F as -> _. contradiction.
  - intros N. destruct s as [|c s]; [elim N; now left|]. exists c, s. split; [reflexivity|]. intros S. apply N. right. exists c, s. split; [reflexivity|exact S].
Qed.
Lemma own_x s : own_value s -> startswith "x-" s = true.
Proof. intros (c & r & -> & _). reflexivity. Qed.
Definition as_it_is (vs : list string) : bool := forallb (fun v => String.eqb (collapse v) v) vs.
Lemma as_it_is_spec vs s : as_it_is vs = true -> In s vs -> collapse s = s.
Proof. unfold as_it_is. rewrite forallb_forall. intros A I. now apply String.eqb_eq, A. Qed.
Lemma reads_one_in vs s : as_it_is vs = true -> In s vs -> reads_one s vs.
Proof. intros A I. exists s. split; [apply reads_collapse; symmetry; now apply (as_it_is_spec vs)|exact I]. Qed.

(** ** Lists *)
Definition sub (vs ws : list string) : bool := forallb (fun v => existsb (String.eqb v) ws) vs.
Lemma sub_in vs ws s : sub vs ws = true -> In s vs -> In s ws.
Proof. unfold sub. rewrite forallb_forall. intros S I. now apply existsb_In, S. Qed.
Lemma inb_in s vs : Server.inb s vs = true <-> In s vs. Proof. apply existsb_In. Qed.

(** x- without a name stays that when it is read. *)
Definition names (s : string) : bool :=
  match s with String a (String b r) => negb (String.eqb (String a (String b "")) "x-") || match r with String c _ => negb (space c) | EmptyString => false end | _ => true end.
Lemma names_spec s : names s = true -> ~ nameless s.
Proof.
  intros N [->|(c & r & -> & S)]; [discriminate N|]. apply space_spec in S. unfold names in N. change ("x-" ++ String c r) with (String "x" (String "-" (String c r))) in N. cbv beta iota in N. rewrite S in N. discriminate N.
Qed.
Lemma nameless_collapse s : nameless s -> nameless (collapse s).
Proof.
  intros [->|(c & r & -> & S)]; [now left|]. unfold collapse, words. change (words_from "" ("x-" ++ String c r)) with (words_from "x-" (String c r)). cbn [words_from].
  apply space_spec in S as ->. cbn [app]. destruct (words_from "" r) as [|u us]; [now left|]. right. exists " "%char, (join " " (u :: us)). split; [reflexivity|]. cbv. auto.
Qed.
Lemma nameless_x s : nameless s -> startswith "x-" s = true.
Proof. intros [->|(c & r & -> & _)]; reflexivity. Qed.

(** An open choice of the package: a value of the list, or one that starts with x-. *)
Lemma open_allows uri vs ws s : sub vs ws = true -> as_it_is vs = true -> forallb names ws = true ->
  In s vs \/ startswith "x-" s = true -> (fits uri (Union [OneOf Token ws; ei_EiExtensionTokenType]) s = true <-> ~ nameless s).
Proof.
  intros S A X I. rewrite own_spec. unfold reads_own. split.
  - intros (v & R & J) N. apply reads_collapse in R as ->. destruct J as [J|J].
    + rewrite forallb_forall in X. apply X in J. apply names_spec in J. apply J. now apply nameless_collapse.
    + apply (own_collapse s (nameless_x s N)), (own_nameless s (nameless_x s N)) in J. contradiction.
  - intros N. exists (collapse s). split; [now apply reads_collapse|]. destruct I as [I|I].
    + left. rewrite (as_it_is_spec vs s A I). now apply (sub_in vs).
    + right. apply own_collapse; [exact I|]. now apply own_nameless.
Qed.
Lemma open_taken uri vs ws s : sub ws vs = true -> reads s s -> fits uri (Union [OneOf Token ws; ei_EiExtensionTokenType]) s = true -> In s vs \/ startswith "x-" s = true.
Proof.
  intros S R F. apply own_spec in F as (v & R' & J). apply reads_collapse in R, R'. rewrite <- R in R'. subst v. destruct J as [J|J]; [left; now apply (sub_in ws)|right; now apply own_x].
Qed.
Lemma closed_allows uri vs ws s : sub vs ws = true -> as_it_is vs = true -> In s vs -> fits uri (OneOf Token ws) s = true.
Proof. intros S A I. apply token_spec. exists s. split; [apply reads_collapse; symmetry; now apply (as_it_is_spec vs)|now apply (sub_in vs)]. Qed.
Lemma closed_taken uri vs ws s : sub ws vs = true -> reads s s -> fits uri (OneOf Token ws) s = true -> In s vs.
Proof. intros S R F. apply token_spec in F as (v & R' & J). apply reads_collapse in R, R'. rewrite <- R in R'. subst v. now apply (sub_in ws). Qed.

(** ** What the package takes *)
Lemma signal_made name type : signal_is_made name type <-> In type SIGNAL_TYPE_values /\ (In name SIGNAL_NAME_values \/ startswith "x-" name = true).
Proof.
  unfold signal_is_made, make_signal. split.
  - intros (ts & tbt & x & E). destruct (Server.inb type SIGNAL_TYPE_values) eqn:T; [|discriminate E]. apply inb_in in T. split; [exact T|].
    destruct (Server.inb name SIGNAL_NAME_values) eqn:N; [left; now apply inb_in|]. destruct (startswith "x-" name) eqn:X; [now right|]. discriminate E.
  - intros (T & N). exists (Some []), None. apply inb_in in T. rewrite T. destruct N as [N|N]; [apply inb_in in N; rewrite N|rewrite N, andb_false_r]; eexists; reflexivity.
Qed.
Definition an_event (name type response : string) : add_args :=
  mk_args name type (ListOfIntervals [mk_iv (Aware 0) 3600000000 (SInt 1) None]) None None None None response "http://market" None None None.
Lemma event_added a : event_is_added a -> In (aa_type a) SIGNAL_TYPE_values /\ (In (aa_name a) SIGNAL_NAME_values \/ startswith "x-" (aa_name a) = true) /\ In (aa_response a) ["always"; "never"].
Proof.
  intros (local & gen & now & v & e & E). unfold event_of_args in E. destruct (Server.inb (aa_response a) _) eqn:R; [|discriminate E]. destruct (Server.inb (aa_type a) _) eqn:T; [|discriminate E].
  apply inb_in in R, T. repeat split; [exact T| |exact R]. destruct (Server.inb (aa_name a) _) eqn:N; [left; now apply inb_in|]. destruct (startswith "x-" (aa_name a)); [now right|discriminate E].
Qed.
Lemma event_can_be_added name type response : In type SIGNAL_TYPE_values -> In name SIGNAL_NAME_values \/ startswith "x-" name = true -> In response ["always"; "never"] -> event_is_added (an_event name type response).
Proof.
  intros T N R. exists (fun z => z), (fun _ => "id"), (fun _ => 0%Z), (SStr "ven"). apply inb_in in T, R. unfold event_of_args, an_event. cbn [aa_event_id aa_response aa_type aa_name aa_intervals]. rewrite R, T. cbn [negb].
  destruct N as [N|N]; [apply inb_in in N; rewrite N|rewrite N, andb_false_r]; eexists; reflexivity.
Qed.
Definition a_report (name reading type scale : string) : areq := mk_areq 0 true SNone (MText "volts") "full" None None name reading type RateDefault (Some scale) None.
Definition nothing : cstate := mk_cstate [] [] [] [] [] [] 0 [] [].
Lemma inb_in' s vs : Measurements.inb s vs = true <-> In s vs. Proof. apply existsb_In. Qed.
Lemma report_added q : report_is_added q ->
  (In (q_name q) REPORT_NAME_values \/ startswith "x-" (q_name q) = true) /\ (In (q_reading q) READING_TYPE_values \/ startswith "x-" (q_reading q) = true) /\
  (In (q_type q) REPORT_TYPE_values \/ startswith "x-" (q_type q) = true) /\ (exists s, q_scale q = Some s /\ In s SI_SCALE_CODE_values).
Proof.
  intros (sp & rid & st & ids & E). unfold add_report in E.
  destruct (negb (Measurements.inb (q_name q) REPORT_NAME_values) && negb (startswith "x-" (q_name q))) eqn:A; [discriminate E|]. destruct (negb (Measurements.inb (q_reading q) READING_TYPE_values) && negb (startswith "x-" (q_reading q))) eqn:B; [discriminate E|]. destruct (negb (Measurements.inb (q_type q) REPORT_TYPE_values) && negb (startswith "x-" (q_type q))) eqn:C; [discriminate E|].
  destruct (q_scale q) as [s|]; [|discriminate E]. destruct (Measurements.inb s SI_SCALE_CODE_values) eqn:D; [|discriminate E].
  assert (H : forall n vs, negb (Measurements.inb n vs) && negb (startswith "x-" n) = false -> In n vs \/ startswith "x-" n = true).
  { intros n vs F. destruct (Measurements.inb n vs) eqn:G; [left; now apply inb_in'|]. right. destruct (startswith "x-" n); [reflexivity|discriminate F]. }
  split; [now apply H|]. split; [now apply H|]. split; [now apply H|]. exists s. split; [reflexivity|now apply inb_in'].
Qed.
Lemma report_can_be_added name reading type scale : In name REPORT_NAME_values \/ startswith "x-" name = true -> In reading READING_TYPE_values \/ startswith "x-" reading = true ->
  In type REPORT_TYPE_values \/ startswith "x-" type = true -> In scale SI_SCALE_CODE_values -> report_is_added (a_report name reading type scale).
Proof.
  intros A B C D.
  assert (H : forall n vs, In n vs \/ startswith "x-" n = true -> negb (Measurements.inb n vs) && negb (startswith "x-" n) = false).
  { intros n vs [F|F]; [apply inb_in' in F; now rewrite F|rewrite F; apply andb_false_r]. }
  exists "s", "r", nothing. unfold add_report, a_report. cbn [q_name q_reading q_type q_scale q_mode q_accepts q_unit]. rewrite (H _ _ A), (H _ _ B), (H _ _ C). apply inb_in' in D. rewrite D. cbn [negb andb].
  change (Measurements.inb "full" ["incremental"; "full"]) with true. cbn [negb]. change ("full" =? "full") with true. cbn [andb]. unfold item_base. cbn [q_name q_measurement q_unit q_scale].
  destruct (name =? "TELEMETRY_STATUS"); eexists; reflexivity.
Qed.
Lemma opt_made type reason : opt_is_made type reason <-> In type OPT_values /\ In reason OPT_REASON_values.
Proof.
  unfold opt_is_made, make_opt. split.
  - intros (now & ev & av & cr & mo & ts & tbt & mrid & x & E). destruct (Server.inb type OPT_values) eqn:T; [|discriminate E]. destruct (Server.inb reason OPT_REASON_values) eqn:R; [|discriminate E]. split; now apply inb_in.
  - intros (T & R). apply inb_in in T, R. exists 0%Z, None, true, None, None, (Some []), None, None. rewrite T, R. eexists. reflexivity.
Qed.
Definition a_measure (name unit : string) : mdict :=
  mk_md (Some name) (Some (match get String.eqb name measurement_descriptions with Some d => d | None => "" end)) (Some unit) None (PowerDict [("voltage", SInt 230); ("ac", SBool true); ("hertz", SInt 50)]) None None.
Lemma validated m n name unit : md_name m = Some name -> md_unit m = Some unit -> validate_report_measurement_dict m = Ok n ->
  (get String.eqb name measurement_descriptions = None /\ md_name n = Some "customUnit") \/
  (exists us, get String.eqb name acceptable_units = Some us /\ In unit us /\ md_name n = Some name).
Proof.
  intros N U V. unfold validate_report_measurement_dict in V. rewrite N, U in V. destruct (md_description m) as [d|]; [|discriminate V].
  destruct (get String.eqb name measurement_descriptions) as [r|].
  - right. match type of V with bind (bind ?x _) _ = _ => destruct x as [m'|] eqn:E; [|discriminate V] end. assert (N' : md_name m' = Some name).
    { destruct (String.eqb d r); [injection E as <-; exact N|]. destruct (String.eqb (lower d) (lower r)); [injection E as <-; exact N|discriminate E]. }
    cbn [bind] in V. destruct (get String.eqb name acceptable_units) as [us|]; [|discriminate V]. destruct (Measurements.inb unit us) eqn:I; [|discriminate V]. cbn [bind] in V. destruct (check_power name m'); [|discriminate V]. injection V as <-.
    exists us. split; [reflexivity|]. split; [now apply existsb_In|exact N'].
  - left. split; [reflexivity|]. cbn [bind] in V. destruct (check_power name _); [|discriminate V]. injection V as <-. destruct (String.eqb name "customUnit") eqn:C; [apply String.eqb_eq in C as <-; exact N|reflexivity].
Qed.
Definition in_dict {A} (d : dict string A) (n : string) : bool := match get String.eqb n d with Some _ => true | None => false end.
Lemma measures_known name : In name measures -> (get String.eqb name measurement_descriptions = None <-> name = "customUnit") /\ (get String.eqb name measurement_namespaces = None <-> name = "currencyPerKW").
Proof. intros M. cbn in M. repeat (destruct M as [<-|M]; [split; split; intros E; first [discriminate E|reflexivity]|]). destruct M. Qed.
Lemma unit_taken name unit : In name measures ->
  (takes (Unit name) unit <-> name <> "currencyPerKW" /\ (name = "customUnit" \/ exists us, get String.eqb name acceptable_units = Some us /\ In unit us)).
Proof.
  intros M. destruct (measures_known name M) as [D K]. unfold takes, measurement_is_taken. split.
  - intros (m & N & U & n & k & V & A). unfold add_namespace in A. destruct (validated m n name unit N U V) as [(G & _)|(us & G & I & W)].
    + apply D in G as ->. split; [discriminate|now left].
    + split; [|right; eauto]. intros E. apply K in E. rewrite W, E in A. discriminate A.
  - intros (NK & H). exists (a_measure name unit). split; [reflexivity|]. split; [reflexivity|].
    assert (P : forall m, md_power m = md_power (a_measure name unit) -> check_power name m = Ok tt) by (intros m E; unfold check_power; rewrite E; now destruct (contains "power" name)).
    assert (V : validate_report_measurement_dict (a_measure name unit) = Ok (a_measure name unit)).
    { unfold validate_report_measurement_dict. cbn [md_name md_description md_unit a_measure]. destruct (get String.eqb name measurement_descriptions) as [r|] eqn:G.
      - rewrite String.eqb_refl. cbn [bind]. destruct H as [->|(us & A & I)]; [discriminate G|]. rewrite A. apply existsb_In in I. unfold Measurements.inb. rewrite I. cbn [bind]. rewrite P; [reflexivity|]. unfold a_measure. now rewrite G.
      - rewrite (proj1 D eq_refl). reflexivity. }
    exists (a_measure name unit). unfold add_namespace. cbn [md_name a_measure]. destruct (get String.eqb name measurement_namespaces) as [ns|] eqn:G; [|now elim NK; apply K].
    eexists. split; [exact V|reflexivity].
Qed.

(** ** What the schema says about units *)
Section Units.
Variable uri : string -> bool.
Definition unit_types (n : string) : list ty :=
  flat_map (fun e => if existsb (String.eqb (fst e)) [in_power n; in_oadr n] then
    match snd e with Complex _ ps => flat_map (fun p => flat_map (fun a => if existsb (String.eqb (fst a)) [in_power "itemUnits"; in_oadr "itemUnits"] then [snd a] else []) (p_alts p)) ps | _ => [] end else [])
  measurement_elements.
Lemma allows_unit n u : allows uri (Unit n) u <-> exists t, In t (unit_types n) /\ (forall k, valid uri (fun _ => false) (Elem k [] u []) t = true).
Proof.
  unfold allows, unit_types. split.
  - intros (e & I & J & H). unfold has_unit in H. destruct (snd e) as [| |da ps| |] eqn:T; try contradiction. destruct H as (p & k & t & A & B & C & V). exists t. split.
    + apply in_flat_map. exists e. split; [exact I|]. apply existsb_In in J. rewrite J, T. apply in_flat_map. exists p. split; [exact A|]. apply in_flat_map. exists (k, t). split; [exact B|]. cbn [fst snd]. apply existsb_In in C. rewrite C. now left.
    + intros k'. cbn [valid] in *. exact V.
  - intros (t & I & V). apply in_flat_map in I as (e & I & H). destruct (existsb _ [in_power n; in_oadr n]) eqn:J; [|destruct H]. apply existsb_In in J. exists e. split; [exact I|]. split; [exact J|]. unfold has_unit.
    destruct (snd e) as [| |da ps| |]; try contradiction. apply in_flat_map in H as (p & A & H). apply in_flat_map in H as ((k & t') & B & H). cbn [fst snd] in H. destruct (existsb _ [in_power "itemUnits"; in_oadr "itemUnits"]) eqn:C; [|destruct H].
    destruct H as [<-|[]]. apply existsb_In in C. exists p, k, t'. repeat split; [exact A|exact B|exact C|apply V].
Qed.
Lemma valid_simple s u : (forall k, valid uri (fun _ => false) (Elem k [] u []) (Simple [] s) = true) <-> fits uri s u = true.
Proof. cbn [valid existsb attributes forallb andb]. split; [intros H; exact (H "")|intros H _; exact H]. Qed.
Lemma valid_fixed v u : (forall k, valid uri (fun _ => false) (Elem k [] u []) (Fixed Text v) = true) <-> u = "" \/ u = v.
Proof.
  cbn [valid existsb attributes forallb andb fits]. unfold value_of. cbn [preserves]. split.
  - intros H. specialize (H ""). apply orb_true_iff in H as [H|H]; apply String.eqb_eq in H; auto.
  - intros [->| ->] k; [reflexivity|]. now rewrite String.eqb_refl, orb_true_r.
Qed.
End Units.

(** ** Both, choice by choice *)
Section Choices.
Variable uri : string -> bool.
Definition schema_currencies : list string := match clm5ISO42173A_ISO3AlphaCurrencyCodeContentType with OneOf _ ws => ws | _ => [] end.
Definition listed (n : string) : option (list string) :=
  if existsb (String.eqb n) ["currency"; "currencyPerKW"; "currencyPerKWh"; "currencyPerThm"] then Some schema_currencies
  else if String.eqb n "powerReal" then Some ["W"; "J/s"] else if String.eqb n "temperature" then Some ["celsius"; "fahrenheit"] else None.
Definition fixed_unit (n : string) : option string :=
  get String.eqb n [("current", "A"); ("energyApparent", "VAh"); ("energyReactive", "VARh"); ("energyReal", "Wh"); ("frequency", "Hz"); ("powerApparent", "VA");
    ("powerReactive", "VAR"); ("pulseCount", "count"); ("Therm", "thm"); ("voltage", "V")].
Lemma units_in_schema n : In n measures ->
  (exists ws, listed n = Some ws /\ unit_types n = [Simple [] (OneOf Token ws)]) \/
  (exists v, fixed_unit n = Some v /\ unit_types n = [Fixed Text v] /\ get String.eqb n acceptable_units = Some [v] /\ n <> "customUnit" /\ n <> "currencyPerKW") \/
  (n = "customUnit" /\ unit_types n = [Simple [] Text]).
Proof.
  clear uri. intros M. cbn in M. repeat (destruct M as [<-|M]; [first [left; eexists; split; reflexivity|right; left; eexists; repeat split; first [reflexivity|discriminate]|right; right; split; reflexivity]|]). destruct M.
Qed.
Lemma units_listed n ws : In n measures -> listed n = Some ws -> n <> "customUnit" /\ exists us, get String.eqb n acceptable_units = Some us /\ sub us ws = true /\ as_it_is us = true /\
  (forall u, In u ws -> In u us \/ unknown_to_package (Unit n) u) /\ (forall u, unknown_to_package (Unit n) u -> n = "currencyPerKW" \/ ~ In u us).
Proof.
  clear uri. intros M L. assert (C : sub schema_currencies ("AED" :: currencies) = true) by (vm_compute; reflexivity).
  assert (A : ~ In "AED" currencies) by (intros I; apply existsb_In in I; vm_compute in I; discriminate I).
  assert (X : sub currencies schema_currencies = true /\ as_it_is currencies = true) by (vm_compute; split; reflexivity). destruct X as [X Y].
  assert (K : forall n u, In n ["currency"; "currencyPerKW"; "currencyPerKWh"; "currencyPerThm"] -> In u schema_currencies -> In u currencies \/ unknown_to_package (Unit n) u).
  { intros m u I J. apply (sub_in _ _ _ C) in J as [<-|J]; [right|now left]. cbn in I. destruct I as [<-|[<-|[<-|[<-|[]]]]]; try (apply un_dirham; cbn; tauto). apply un_per_kw. }
  cbn in M. clear C.
  repeat (destruct M as [<-|M]; [try discriminate L; injection L as <-; (split; [discriminate|]); eexists; (split; [reflexivity|]);
    first [ split; [exact X|]; split; [exact Y|]; split; [intros u; apply K; cbn; tauto|intros u U; inversion U; subst; first [now left|right; exact A]]
          | split; [reflexivity|]; split; [reflexivity|]; split; [intros u [<-|[<-|[]]]; first [left; cbn; tauto|right; constructor]|intros u U; inversion U; subst; try (right; intros [E|[]]; discriminate E);
              try (match goal with H : In _ _ |- _ => cbn in H; destruct H as [H|[H|[H|[]]]]; discriminate H end)] ] |]).
  destruct M.
Qed.

(** The values that the package lists, and whether it takes x- as well. *)
Definition package_list (f : choice) : list string :=
  match f with
  | SignalName => SIGNAL_NAME_values | SignalType => SIGNAL_TYPE_values | ResponseRequired => ["always"; "never"]
  | ReportName => REPORT_NAME_values | ReadingType => READING_TYPE_values | ReportType => REPORT_TYPE_values | Scale => SI_SCALE_CODE_values
  | OptType => OPT_values | OptReason => OPT_REASON_values | Unit n => match get String.eqb n acceptable_units with Some us => us | None => [] end
  end.
Lemma open_choice_spec f : open_choice f <-> f = SignalName \/ f = ReportName \/ f = ReadingType \/ f = ReportType.
Proof. clear uri. unfold open_choice. cbn. intuition congruence. Qed.
Lemma one_name : In "SIMPLE" SIGNAL_NAME_values. Proof. apply existsb_In. reflexivity. Qed.
Lemma one_type : In "level" SIGNAL_TYPE_values. Proof. apply existsb_In. reflexivity. Qed.
Lemma one_report : In "TELEMETRY_USAGE" REPORT_NAME_values. Proof. apply existsb_In. reflexivity. Qed.
Lemma one_reading : In "Direct Read" READING_TYPE_values. Proof. apply existsb_In. reflexivity. Qed.
Lemma one_report_type : In "usage" REPORT_TYPE_values. Proof. apply existsb_In. reflexivity. Qed.
Lemma one_scale : In "none" SI_SCALE_CODE_values. Proof. apply existsb_In. reflexivity. Qed.
Lemma one_opt : In "optIn" OPT_values. Proof. apply existsb_In. reflexivity. Qed.
Lemma one_reason : In "economic" OPT_REASON_values. Proof. apply existsb_In. reflexivity. Qed.
Local Hint Resolve one_name one_type one_report one_reading one_report_type one_scale one_opt one_reason : core.
Lemma takes_spec f s : (forall n, f <> Unit n) -> (takes f s <-> In s (package_list f) \/ open_choice f /\ startswith "x-" s = true).
Proof.
  clear uri. intros NU. rewrite open_choice_spec. destruct f; cbn [takes package_list].
  - split.
    + intros [(a & <- & H)|(t & H)]; [apply event_added in H as (_ & H & _)|apply signal_made in H as (_ & H)]; tauto.
    + intros H. right. exists "level". apply signal_made. split; [auto|]. tauto.
  - split.
    + intros [(a & <- & H)|(t & H)]; [apply event_added in H as (H & _)|apply signal_made in H as (H & _)]; tauto.
    + intros [H|[[H|[H|[H|H]]] _]]; try discriminate H. right. exists "SIMPLE". apply signal_made. auto.
  - split.
    + intros (a & <- & H). apply event_added in H as (_ & _ & H). tauto.
    + intros [H|[[H|[H|[H|H]]] _]]; try discriminate H. exists (an_event "SIMPLE" "level" s). split; [reflexivity|]. apply event_can_be_added; auto.
  - split.
    + intros (q & <- & H). apply report_added in H as (H & _). tauto.
    + intros H. exists (a_report s "Direct Read" "usage" "none"). split; [reflexivity|]. apply report_can_be_added; auto. tauto.
  - split.
    + intros (q & <- & H). apply report_added in H as (_ & H & _). tauto.
    + intros H. exists (a_report "TELEMETRY_USAGE" s "usage" "none"). split; [reflexivity|]. apply report_can_be_added; auto. tauto.
  - split.
    + intros (q & <- & H). apply report_added in H as (_ & _ & H & _). tauto.
    + intros H. exists (a_report "TELEMETRY_USAGE" "Direct Read" s "none"). split; [reflexivity|]. apply report_can_be_added; auto. tauto.
  - split.
    + intros (q & E & H). apply report_added in H as (_ & _ & _ & s' & E' & H). left. congruence.
    + intros [H|[[H|[H|[H|H]]] _]]; try discriminate H. exists (a_report "TELEMETRY_USAGE" "Direct Read" "usage" s). split; [reflexivity|]. apply report_can_be_added; auto.
  - split.
    + intros (r & H). apply opt_made in H as (H & _). tauto.
    + intros [H|[[H|[H|[H|H]]] _]]; try discriminate H. exists "economic". apply opt_made. auto.
  - split.
    + intros (r & H). apply opt_made in H as (_ & H). tauto.
    + intros [H|[[H|[H|[H|H]]] _]]; try discriminate H. exists "optIn". apply opt_made. auto.
  - now elim (NU name).
Qed.
Lemma taken_iff f s : is_choice f -> takes f s -> (allows uri f s <-> ~ (open_choice f /\ nameless s)).
Proof.
  intros C T. destruct f.
  10: { cbn in C. rewrite open_choice_spec. split; [intros _ [[H|[H|[H|H]]] _]; discriminate H|]. intros _. apply unit_taken in T as (NK & T); [|exact C]. apply allows_unit.
    destruct (units_in_schema name C) as [(ws & L & E)|[(v & _ & E & A & NC & _)|(-> & E)]]; rewrite E; (eexists; split; [now left|]).
    - apply valid_simple. destruct (units_listed name ws C L) as (NC & us & A & S & I & _). destruct T as [->|(us' & A' & J)]; [contradiction|]. rewrite A in A'. injection A' as <-. now apply (closed_allows uri us).
    - apply valid_fixed. destruct T as [->|(us' & A' & J)]; [contradiction|]. rewrite A in A'. injection A' as <-. destruct J as [<-|[]]. now right.
    - apply valid_simple. reflexivity. }
  all: apply takes_spec in T; [|discriminate]; cbn [package_list] in T; rewrite open_choice_spec in *.
  1: (assert (G : allows uri SignalName s <-> ~ nameless s) by (apply (open_allows uri SIGNAL_NAME_values); [vm_compute; reflexivity..|destruct T as [T|[_ T]]; [left|right]; exact T])).
  4: (assert (G : allows uri ReportName s <-> ~ nameless s) by (apply (open_allows uri REPORT_NAME_values); [vm_compute; reflexivity..|destruct T as [T|[_ T]]; [left|right]; exact T])).
  5: (assert (G : allows uri ReadingType s <-> ~ nameless s) by (apply (open_allows uri READING_TYPE_values); [vm_compute; reflexivity..|destruct T as [T|[_ T]]; [left|right]; exact T])).
  6: (assert (G : allows uri ReportType s <-> ~ nameless s) by (apply (open_allows uri REPORT_TYPE_values); [vm_compute; reflexivity..|destruct T as [T|[_ T]]; [left|right]; exact T])).
  1, 4, 5, 6: rewrite G; clear; tauto.
  all: (destruct T as [T|[[H|[H|[H|H]]] _]]; [|discriminate H..]); (split; [intros _ [[H|[H|[H|H]]] _]; discriminate H|]); intros _; cbn [allows].
  - apply (closed_allows uri SIGNAL_TYPE_values); [vm_compute; reflexivity..|exact T].
  - apply text_one_spec. exact T.
  - apply text_one_spec. revert T. apply sub_in. vm_compute. reflexivity.
  - apply (closed_allows uri OPT_values); [vm_compute; reflexivity..|exact T].
  - change (fits uri (Union [ei_OptReasonEnumeratedType; ei_EiExtensionTokenType]) s = true). assert (F : fits uri ei_OptReasonEnumeratedType s = true) by (apply (closed_allows uri OPT_REASON_values); [vm_compute; reflexivity..|exact T]).
    cbn [fits] in *. cbn [existsb]. apply orb_true_iff. left. exact F.
Qed.
Lemma known_iff f s : is_choice f -> tidy s -> allows uri f s -> (takes f s <-> ~ unknown_to_package f s).
Proof.
  intros C (NE & R) A. destruct f.
  10: { cbn in C. rewrite unit_taken by exact C. apply allows_unit in A as (t & I & V).
    destruct (units_in_schema name C) as [(ws & L & E)|[(v & _ & E & G & NC & NK)|(-> & E)]]; rewrite E in I; destruct I as [<-|[]].
    - apply valid_simple in V. destruct (units_listed name ws C L) as (NC & us & G & S & _ & U & W). apply (closed_taken uri ws) in V; [|unfold sub; apply forallb_forall; intros x J; now apply existsb_In|exact R].
      split.
      + intros (NK & [H|(us' & G' & J)]) X; [contradiction|]. rewrite G in G'. injection G' as <-. destruct (W s X) as [K|K]; contradiction.
      + intros N. split; [intros ->; apply N; constructor|]. right. exists us. split; [exact G|]. destruct (U s V); [assumption|contradiction].
    - apply valid_fixed in V as [->| ->]; [now elim NE|]. split.
      + intros _ X. inversion X as [|n' J| |]; subst; cbn in G; try discriminate G; try contradiction. cbn in J. destruct J as [<-|[<-|[<-|[]]]]; discriminate G.
      + intros _. split; [exact NK|]. right. exists [v]. split; [exact G|now left].
    - split; [intros _ X; inversion X as [|n' J| |]; subst; cbn in J; destruct J as [H|[H|[H|[]]]]; discriminate H|]. intros _. split; [discriminate|now left]. }
  all: rewrite takes_spec by discriminate; rewrite open_choice_spec; cbn [package_list allows] in *.
  9: { split.
    - intros [T|[[H|[H|[H|H]]] _]]; [|discriminate H..]. intros X. inversion X as [s' O N| | |]; subst. apply own_x in O.
      assert (Q : forallb (fun v => String.eqb v "x-schedule" || negb (startswith "x-" v)) OPT_REASON_values = true) by reflexivity.
      rewrite forallb_forall in Q. apply Q in T. rewrite O in T. rewrite orb_false_r in T. apply String.eqb_eq in T. contradiction.
    - intros N. left. apply own_spec in A as (v & R' & J). apply reads_collapse in R, R'. rewrite <- R in R'. subst v. destruct J as [J|J].
      + revert J. apply sub_in. vm_compute. reflexivity.
      + destruct (String.eqb s "x-schedule") eqn:E; [apply String.eqb_eq in E as ->; apply existsb_In; reflexivity|]. apply String.eqb_neq in E. now elim N; constructor. }
  all: (split; [intros _ X; inversion X|]); intros _.
  - apply (open_taken uri SIGNAL_NAME_values) in A; [tauto|vm_compute; reflexivity|exact R].
  - apply (closed_taken uri SIGNAL_TYPE_values) in A; [tauto|vm_compute; reflexivity|exact R].
  - apply text_one_spec in A. now left.
  - apply (open_taken uri REPORT_NAME_values) in A; [tauto|vm_compute; reflexivity|exact R].
  - apply (open_taken uri READING_TYPE_values) in A; [tauto|vm_compute; reflexivity|exact R].
  - apply (open_taken uri REPORT_TYPE_values) in A; [tauto|vm_compute; reflexivity|exact R].
  - apply text_one_spec in A. left. revert A. apply sub_in. vm_compute. reflexivity.
  - apply (closed_taken uri OPT_values) in A; [tauto|vm_compute; reflexivity|exact R].
Qed.
End Choices.

(** ** Classes, by their assignments *)
Lemma namespace_get b k v : get String.eqb k (namespace b) = Some v <-> ends_as b k v.
Proof.
  unfold namespace. assert (H : forall d, get String.eqb k (fold_left (fun d kv => set String.eqb (fst kv) (snd kv) d) b d) = Some v <-> ends_as b k v \/ (~ In k (map fst b) /\ get String.eqb k d = Some v)).
  { induction b as [|[a w] b IH]; intros d; cbn [fold_left map fst snd].
    - split; [intros G; right; split; [intros []|exact G]|]. intros [(x & y & E & _)|[_ G]]; [destruct x; discriminate E|exact G].
    - rewrite IH. split.
      + intros [(x & y & -> & N)|[N G]]; [left; exists ((a, w) :: x), y; split; [reflexivity|exact N]|]. destruct (String.eqb k a) eqn:E.
        * apply String.eqb_eq in E as <-. rewrite (get_set_same String.eqb String.eqb_eq) in G. injection G as ->. left. exists [], b. split; [reflexivity|exact N].
        * apply String.eqb_neq in E. rewrite (get_set_other String.eqb String.eqb_eq) in G by congruence. right. split; [|exact G]. intros [F|F]; [congruence|contradiction].
      + intros [(x & y & E & N)|[N G]].
        * destruct x as [|p x]; [injection E as -> -> ->; right; split; [exact N|]; now rewrite (get_set_same String.eqb String.eqb_eq)|]. injection E as _ ->. left. exists x, y. split; [reflexivity|exact N].
        * right. split; [intros F; apply N; now right|]. rewrite (get_set_other String.eqb String.eqb_eq); [exact G|]. intros ->. apply N. now left. }
  rewrite H. split; [intros [E|[_ E]]; [exact E|discriminate E]|now left].
Qed.
Lemma member_name_spec k : member_name k <-> ~ In k names_of_metaclass /\ startswith "_" k = false.
Proof.
  unfold member_name. split; intros (N & U); (split; [exact N|]).
  - destruct (startswith "_" k) eqn:E; [|reflexivity]. apply startswith_spec in E as (r & E). now elim (U r).
  - intros r E. assert (T : startswith "_" k = true) by (apply startswith_spec; eauto). congruence.
Qed.
Lemma members_are b k : In k (members b) <-> member_name k /\ exists v, ends_as b k v.
Proof.
  rewrite members_spec, member_name_spec. split.
  - intros ((v & G) & N & U). split; [now split|]. exists v. now apply namespace_get.
  - intros ((N & U) & v & G). split; [exists v; now apply namespace_get|now split].
Qed.
Lemma values_are b v : In v (values b) <-> exists k, member_name k /\ ends_as b k v.
Proof.
  rewrite values_spec. split; intros (k & H); exists k.
  - destruct H as (G & N & U). split; [now apply member_name_spec|now apply namespace_get].
  - destruct H as (M & G). apply member_name_spec in M as (N & U). split; [now apply namespace_get|now split].
Qed.
Lemma same_values (vs ws : list string) : sub vs ws = true -> sub ws vs = true -> forall s, In s vs <-> In s ws.
Proof. intros A B s. split; now apply sub_in. Qed.
