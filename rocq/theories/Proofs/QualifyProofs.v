(** The namespaces of the elements of a message: the prefixes of the templates
    put each name in the namespace where the schema has it. *)
From Coq Require Import ZArith String Ascii List Bool Lia.
From Verif.Base Require Import Result Dict PyStr ListExtra.
From Verif.Model Require Import Text Normalize Xml XmlParty XmlOpt XmlText Measurements Jinja Payloads SchemaTypes.
From Verif.Spec Require Import TextSpec XmlTextSpec WrittenSpec PayloadSpec PayloadsAnySpec.
From Verif.Proofs Require Import TextProofs XmlTextProofs TemplateProofs PayloadProofs AnyProofs.
Import ListNotations.
Local Open Scope string_scope.

(** ** Names with their namespaces *)
Definition item_names : list string := ["itemDescription"; "itemUnits"].
Definition power_names : list string := ["powerAttributes"; "hertz"; "ac"; "endDeviceAsset"; "mrid"].
Definition payload_names : list string := ["requestID"; "replyLimit"; "reportToFollow"; "eiCreatedEvent"; "eiRequestEvent"].
Definition calendar_names : list string := ["date-time"; "dtstart"; "duration"; "properties"; "components"; "tolerance"; "tolerate"; "startafter"; "uid"; "text"; "granularity"; "vavailability"; "available"].
Definition among (n : string) (l : list string) : bool := existsb (String.eqb n) l.
Definition fixed_uri (n : string) : string :=
  if startswith "oadr" n || (n =? "pulseFactor") then oadr_uri else if among n power_names then power_uri else if among n payload_names then pyld_uri else if among n calendar_names then xcal_uri
  else if n =? "intervals" then strm_uri else if n =? "marketContext" then emix_uri else if n =? "siScaleCode" then scale_uri else ei_uri.
Definition prefix_uri (p : string) : string := if p =? "oadr" then oadr_uri else power_uri.
(** [pu]: the namespace of the parent. *)
Definition uri_of (pu n : string) : string :=
  if among n item_names then pu else match get String.eqb n measurement_namespaces with Some p => prefix_uri p | None => fixed_uri n end.
Definition qualify_attr (a : string * string) : string * string :=
  (if fst a =? "schemaVersion" then in_ei (fst a) else if fst a =? "Id" then in_oadr (fst a) else fst a, snd a).
Fixpoint qualify (pu : string) (x : xml) : xml :=
  match x with Elem n attrs t cs => let u := uri_of pu n in Elem (clark u n) (map qualify_attr attrs) t (map (qualify u) cs) end.

(** ** Checking a template *)
Definition finds (sc : scope) (p u : string) : bool := match lookup p sc with Some v => v =? u | None => false end.
Definition both_prefixes (sc : scope) : bool := finds sc "oadr" oadr_uri && finds sc "power" power_uri.
(** [cur]: the measurement that the parent stands for; the result is that of the element. *)
Definition name_place (sc : scope) (cur : option expr) (q : qname) : option (option expr) :=
  match q_prefix q, q_local q with
  | None, PLit n => if negb (among n item_names) && negb (uri_of "" n =? "") && finds sc "" (uri_of "" n) then Some None else None
  | Some (PLit p), PLit n => if negb (among n item_names) && finds sc p (uri_of "" n) then Some None else None
  | Some (POut (EAttr m k)), PLit n =>
    match cur with Some m' => if (k =? "ns") && expr_eqb m m' && among n item_names && both_prefixes sc then Some None else None | None => None end
  | Some (POut (EAttr m k)), POut (EAttr m' k') => if (k =? "ns") && (k' =? "name") && expr_eqb m m' && both_prefixes sc then Some (Some m) else None
  | _, _ => None
  end.
Definition attrs_place (sc : scope) (raw : list (string * string)) : bool :=
  match attribute_names sc raw with Some l => attrs_eqb l (map qualify_attr (plain_attrs raw)) | None => false end.
Definition place (sc : scope) (cur : option expr) (q : qname) (raw : list (string * string)) : option (scope * option expr) :=
  match declarations raw with
  | Some ds => let sc := (ds ++ sc)%list in match name_place sc cur q with Some cur => if attrs_place sc raw then Some (sc, cur) else None | None => None end
  | None => None
  end.
(** What cannot be rendered. *)
Fixpoint doomed (i : item) : bool := match i with IBad => true | INode _ _ _ cs => existsb doomed cs | _ => false end.
Fixpoint placed (sc : scope) (cur : option expr) (i : item) : bool :=
  match i with
  | IText q raw _ _ | IEmpty q raw _ => match place sc cur q raw with Some _ => true | None => false end
  | INode q raw _ cs => existsb doomed cs || match place sc cur q raw with Some (sc, cur) => forallb (placed sc cur) cs | None => false end
  | IIf _ a b => (existsb doomed a || forallb (placed sc cur) a) && (existsb doomed b || forallb (placed sc cur) b)
  | IFor _ _ body => existsb doomed body || forallb (placed sc None) body
  | IBad => true
  end.

(** ** It is so in all payloads in which measurements have their namespace *)
Definition proper_ns (d : vdict) : Prop :=
  get String.eqb "ns" d = None \/ exists n p, get String.eqb "name" d = Some (VStr n) /\ get String.eqb "ns" d = Some (VStr p) /\ get String.eqb n measurement_namespaces = Some p.
Definition proper_value (v : val) : Prop := match v with VDict d => proper_ns d | _ => True end.
Section Placed.
Variable other : val -> string.
Definition proper (c : vdict) : Prop := tidy proper_value c.
Lemma eval_proper c e v : proper c -> eval other c e = Ok v -> fine_value proper_value v.
Proof. intros T. apply (eval_fine other proper_value (fun _ => true)); try (intros; exact I); [exact T|apply all_texts]. Qed.
Definition stands_for (c : vdict) (cur : option expr) (pu : string) : Prop :=
  match cur with
  | None => True
  | Some m => exists d n p, eval other c m = Ok (Some (VDict d)) /\ get String.eqb "name" d = Some (VStr n) /\ get String.eqb "ns" d = Some (VStr p) /\ get String.eqb n measurement_namespaces = Some p /\ pu = prefix_uri p
  end.
Lemma finds_lookup sc p u : finds sc p u = true -> lookup p sc = Some u.
Proof. unfold finds. destruct (lookup p sc); [|discriminate]. intros E. apply String.eqb_eq in E. now subst. Qed.
Lemma finds_name sc t u n : name t -> lookup t sc = Some u -> element_name sc (t ++ ":" ++ n) = Some (clark u n).
Proof. intros [_ N] L. unfold element_name, prefixed_name. pose proof (split_colon_prefix t N n) as SC. cbn [append] in SC |- *. now rewrite SC, L. Qed.
Lemma both_finds sc p t : both_prefixes sc = true -> prefix_ok (POut p) t = true -> lookup t sc = Some (prefix_uri t).
Proof.
  intros B P. apply andb_prop in B as [B1 B2]. apply finds_lookup in B1, B2. cbn [prefix_ok prefixes existsb] in P. apply orb_prop in P as [P|P]; [apply String.eqb_eq in P as ->; exact B1|].
  rewrite orb_false_r in P. apply String.eqb_eq in P as ->. exact B2.
Qed.
(** The namespace that a value in the payload names. *)
Lemma ns_text c m t : proper c -> part_text other c (POut (EAttr m "ns")) = Ok t -> prefix_ok (POut (EAttr m "ns")) t = true ->
  exists d n, eval other c m = Ok (Some (VDict d)) /\ get String.eqb "name" d = Some (VStr n) /\ get String.eqb "ns" d = Some (VStr t) /\ get String.eqb n measurement_namespaces = Some t.
Proof.
  intros T H P. cbn [part_text eval] in H. destruct (eval other c m) as [v|] eqn:E; cbn [bind] in H; [|discriminate]. pose proof (eval_proper c m v T E) as F. destruct v as [v|]; cbn [attribute bind] in H; [|discriminate].
  destruct v; cbn [attribute bind] in H; injection H as <-; try discriminate P. pose proof (fine_this _ _ _ F eq_refl) as [A|(n & p & A & B & C)].
  - unfold vget in P. rewrite A in P. discriminate P.
  - unfold vget. rewrite B. cbn [show]. exists d, n. auto.
Qed.
Lemma name_text c m n : part_text other c (POut (EAttr m "name")) = Ok n -> forall d k, eval other c m = Ok (Some (VDict d)) -> get String.eqb "name" d = Some (VStr k) -> n = k.
Proof. intros H d k E G. cbn [part_text eval] in H. rewrite E in H. cbn [bind attribute] in H. unfold vget in H. rewrite G in H. now injection H as <-. Qed.
Lemma measured_not_item n p : get String.eqb n measurement_namespaces = Some p -> among n item_names = false.
Proof.
  intros G. apply not_true_iff_false. intros A. unfold among in A. cbn [existsb item_names] in A. apply orb_prop in A as [A|A]; [apply String.eqb_eq in A as ->; discriminate G|].
  rewrite orb_false_r in A. apply String.eqb_eq in A as ->. discriminate G.
Qed.
Lemma name_placed c sc cur pu q cur' n w : proper c -> stands_for c cur pu -> name_place sc cur q = Some cur' -> qname_text other c q = Good (n, w) ->
  element_name sc w = Some (clark (uri_of pu n) n) /\ stands_for c cur' (uri_of pu n).
Proof.
  intros T S P H. unfold name_place in P. unfold qname_text in H. destruct (q_prefix q) as [p|].
  2: { destruct (q_local q) as [k|]; [|discriminate]. cbn [part_text lift obind] in H. destruct (nameb k) eqn:Nk; [|discriminate]. injection H as <- <-. apply nameb_name in Nk as [_ Nk]. destruct (_ && _) eqn:B in P; [|discriminate]. injection P as <-.
    apply andb_prop in B as [B F]. apply andb_prop in B as [N E]. apply negb_true_iff in N, E. split; [|exact I]. unfold element_name. rewrite (split_colon_none _ Nk). apply finds_lookup in F. rewrite F, E. unfold uri_of. now rewrite N. }
  destruct (part_text other c p) as [t|] eqn:Ep; cbn [lift obind] in H; [|discriminate]. destruct (part_text other c (q_local q)) as [l|] eqn:El; cbn [lift obind] in H; [|discriminate].
  destruct (prefix_ok p t && nameb l) eqn:K; [|discriminate]. injection H as <- <-. apply andb_prop in K as [K _]. pose proof (prefix_name p t K) as Np.
  destruct p as [p|e].
  - destruct (q_local q) as [k|]; [|discriminate]. destruct (_ && _) eqn:B in P; [|discriminate]. injection P as <-. apply andb_prop in B as [N F]. apply negb_true_iff in N. injection Ep as ->. injection El as ->.
    split; [|exact I]. apply finds_name; [exact Np|]. apply finds_lookup in F. rewrite F. unfold uri_of. now rewrite N.
  - destruct e as [|m k| | | | | | | | | |]; try discriminate. destruct (q_local q) as [i|[|m' k'| | | | | | | | | |]]; try discriminate.
    + destruct cur as [m'|]; [|discriminate]. destruct (_ && _) eqn:B in P; [|discriminate]. injection P as <-. apply andb_prop in B as [B B4]. apply andb_prop in B as [B B3]. apply andb_prop in B as [B1 B2].
      apply String.eqb_eq in B1 as ->. apply expr_eqb_eq in B2 as <-. destruct (ns_text c m t T Ep K) as (d & j & Em & Gn & Gs & Gm). destruct S as (d' & j' & p' & Em' & Gn' & Gs' & Gm' & ->).
      rewrite Em in Em'. injection Em' as <-. rewrite Gs in Gs'. injection Gs' as <-. injection El as <-. split; [|exact I]. apply finds_name; [exact Np|]. rewrite (both_finds sc _ t B4 K). unfold uri_of. now rewrite B3.
    + destruct (_ && _) eqn:B in P; [|discriminate]. injection P as <-. apply andb_prop in B as [B B4]. apply andb_prop in B as [B B3]. apply andb_prop in B as [B1 B2]. apply String.eqb_eq in B1 as ->, B2 as ->. apply expr_eqb_eq in B3 as <-.
      destruct (ns_text c m t T Ep K) as (d & j & Em & Gn & Gs & Gm). pose proof (name_text c m l El d j Em Gn) as ->.
      assert (U : uri_of pu j = prefix_uri t) by (unfold uri_of; now rewrite (measured_not_item j t Gm), Gm). rewrite U.
      split; [apply finds_name; [exact Np|now apply (both_finds sc (EAttr m "ns"))]|]. exists d, j, t. auto.
Qed.

Lemma concat_doomed {A} (f : A -> outcome (list xml)) (b : A -> bool) l xs : (forall a ys, In a l -> f a = Good ys -> b a = false) -> concat_all f l = Good xs -> existsb b l = false.
Proof.
  revert xs. induction l as [|a l IH]; intros xs H E; [reflexivity|]. cbn [concat_all] in E. fold (concat_all f l) in E. destruct (f a) as [ys| |] eqn:Ea; cbn [obind] in E; try discriminate.
  destruct (concat_all f l) as [zs| |] eqn:El; cbn [obind] in E; try discriminate. cbn [existsb]. rewrite (H a ys (or_introl eq_refl) Ea). apply (IH zs); [|reflexivity]. intros x zs' J. apply H. now right.
Qed.
Lemma doomed_tree : forall i c xs, tree other i c = Good xs -> doomed i = false.
Proof.
  fix IH 1. intros i c xs H. destruct i as [q attrs a t|q attrs a|q attrs a cs|e a b|x e body|]; try reflexivity; [|discriminate H]. cbn [tree doomed] in *.
  destruct (qname_text other c q); cbn [obind] in H; try discriminate. destruct (concat_all (fun i => tree other i c) cs) as [ys| |] eqn:E; cbn [obind] in H; try discriminate. revert E. apply concat_doomed.
  clear - IH. intros k ys J. revert ys. induction cs as [|i cs IHc]; [destruct J|]. destruct J as [E|J]; [rewrite <- E; exact (IH i c)|exact (IHc J)].
Qed.
Lemma doomed_trees is c xs : concat_all (fun i => tree other i c) is = Good xs -> existsb doomed is = false.
Proof. apply concat_doomed. intros i ys _. apply doomed_tree. Qed.

(** [ok o r]: if both are trees, then those of [r] are those of [o] with their namespaces. *)
Definition ok (sc : scope) (pu : string) (o r : outcome (list xml)) : Prop :=
  forall xs rs es, o = Good xs -> r = Good rs -> all_some (expand sc) rs = Some es -> es = map (qualify pu) xs.
Lemma all_some_split {A B} (f : A -> option B) a b z : all_some f (a ++ b)%list = Some z -> exists x y, all_some f a = Some x /\ all_some f b = Some y /\ z = (x ++ y)%list.
Proof.
  revert z. induction a as [|k a IH]; intros z H; cbn [app] in H; [exists [], z; auto|]. cbn [all_some] in H |- *. fold (all_some f (a ++ b)%list) in H. fold (all_some f a). destruct (f k) as [u|]; [|discriminate].
  destruct (all_some f (a ++ b)%list) as [l|]; [|discriminate]. injection H as <-. destruct (IH l eq_refl) as (x & y & -> & Y & ->). exists (u :: x), y. auto.
Qed.
Lemma ok_concat {A} sc pu (f g : A -> outcome (list xml)) l : (forall a, In a l -> ok sc pu (f a) (g a)) -> ok sc pu (concat_all f l) (concat_all g l).
Proof.
  induction l as [|a l IH]; intros H xs rs es E F X; [injection E as <-; injection F as <-; now injection X as <-|]. cbn [concat_all] in E, F. fold (concat_all f l) in E. fold (concat_all g l) in F.
  destruct (f a) as [x1| |] eqn:Fa; cbn [obind] in E; try discriminate. destruct (concat_all f l) as [x2| |] eqn:Fl; cbn [obind] in E; try discriminate. injection E as <-.
  destruct (g a) as [r1| |] eqn:Ga; cbn [obind] in F; try discriminate. destruct (concat_all g l) as [r2| |] eqn:Gl; cbn [obind] in F; try discriminate. injection F as <-.
  apply all_some_split in X as (e1 & e2 & X1 & X2 & ->). rewrite map_app. f_equal; [now apply (H a (or_introl eq_refl) x1 r1 e1)|]. refine (IH _ x2 r2 e2 eq_refl eq_refl X2). intros b J. apply H. now right.
Qed.
Lemma ok_counted {A} sc pu (f g : nat -> A -> outcome (list xml)) k l : (forall i a, In a l -> ok sc pu (f i a) (g i a)) -> ok sc pu (concat_counted f k l) (concat_counted g k l).
Proof.
  revert k. induction l as [|a l IH]; intros k H xs rs es E F X; [injection E as <-; injection F as <-; now injection X as <-|]. cbn [concat_counted] in E, F. fold (concat_counted f (S k) l) in E. fold (concat_counted g (S k) l) in F.
  destruct (f k a) as [x1| |] eqn:Fa; cbn [obind] in E; try discriminate. destruct (concat_counted f (S k) l) as [x2| |] eqn:Fl; cbn [obind] in E; try discriminate. injection E as <-.
  destruct (g k a) as [r1| |] eqn:Ga; cbn [obind] in F; try discriminate. destruct (concat_counted g (S k) l) as [r2| |] eqn:Gl; cbn [obind] in F; try discriminate. injection F as <-.
  apply all_some_split in X as (e1 & e2 & X1 & X2 & ->). rewrite map_app. f_equal; [now apply (H k a (or_introl eq_refl) x1 r1 e1)|]. refine (IH (S k) _ x2 r2 e2 Fl Gl X2). intros i b J. apply H. now right.
Qed.
Lemma ok_one sc pu q raw c n w t cs rs sc' cur cur' : proper c -> stands_for c cur pu -> place sc cur q raw = Some (sc', cur') -> qname_text other c q = Good (n, w) ->
  (forall es, all_some (expand sc') rs = Some es -> es = map (qualify (uri_of pu n)) cs) ->
  forall es, all_some (expand sc) [Elem w raw t rs] = Some es -> es = map (qualify pu) [Elem n (plain_attrs raw) t cs].
Proof.
  intros T S P Q C es X. unfold place in P. destruct (declarations raw) as [ds|] eqn:D; [|discriminate]. cbv zeta in P. destruct (name_place (ds ++ sc)%list cur q) as [k|] eqn:N; [|discriminate].
  destruct (attrs_place (ds ++ sc)%list raw) eqn:A; [|discriminate]. injection P as <- <-. destruct (name_placed c _ cur pu q k n w T S N Q) as [E _].
  cbn [all_some expand] in X. rewrite D in X. cbv zeta in X. rewrite E in X. unfold attrs_place in A. destruct (attribute_names (ds ++ sc)%list raw) as [l|]; [|discriminate]. apply attrs_eqb_eq in A as ->.
  destruct (all_some (expand (ds ++ sc)%list) rs) as [fs|] eqn:F; [|discriminate X]. destruct (_ && _); [|discriminate X]. injection X as <-. rewrite (C fs eq_refl). reflexivity.
Qed.
Lemma place_stands sc pu q raw c n w sc' cur cur' : proper c -> stands_for c cur pu -> place sc cur q raw = Some (sc', cur') -> qname_text other c q = Good (n, w) -> stands_for c cur' (uri_of pu n).
Proof.
  intros T S P Q. unfold place in P. destruct (declarations raw) as [ds|]; [|discriminate]. cbv zeta in P. destruct (name_place (ds ++ sc)%list cur q) as [k|] eqn:N; [|discriminate].
  destruct (attrs_place (ds ++ sc)%list raw); [|discriminate]. injection P as <- <-. now destruct (name_placed c _ cur pu q k n w T S N Q).
Qed.
Lemma placed_tree : forall i sc cur c pu, proper c -> stands_for c cur pu -> placed sc cur i = true -> ok sc pu (tree other i c) (rtree other i c).
Proof.
  fix IH 1. intros i sc cur c pu T S O.
  assert (ALL : forall (is : list item) sc cur c pu, (fix go (l : list item) : Prop := match l with [] => True | i :: l => (forall sc cur c pu, proper c -> stands_for c cur pu -> placed sc cur i = true -> ok sc pu (tree other i c) (rtree other i c)) /\ go l end) is ->
    proper c -> stands_for c cur pu -> existsb doomed is || forallb (placed sc cur) is = true -> ok sc pu (concat_all (fun i => tree other i c) is) (concat_all (fun i => rtree other i c) is)).
  { clear. intros is sc cur c pu H T S O. destruct (existsb doomed is) eqn:D; cbn [orb] in O.
    - intros xs rs es E. apply doomed_trees in E. congruence.
    - clear D. apply ok_concat. intros i J. induction is as [|k is IHi]; [destruct J|]. destruct H as [H1 H2]. cbn [forallb] in O. apply andb_prop in O as [O1 O2]. destruct J as [<-|J]; [now apply (H1 sc cur)|now apply IHi]. }
  destruct i as [q attrs a t|q attrs a|q attrs a cs|e a b|x e body|]; cbn [placed tree rtree] in *.
  - destruct (place sc cur q attrs) as [[sc' cur']|] eqn:P; [|discriminate]. intros xs rs es E F X. destruct (qname_text other c q) as [[n w]| |] eqn:Q; cbn [obind] in E, F; try discriminate.
    destruct (part_text other c t) as [s|]; cbn [lift obind] in E, F; [|discriminate]. injection E as <-. injection F as <-. cbn [fst snd] in *. revert es X. eapply ok_one; try eassumption. intros es [= <-]. reflexivity.
  - destruct (place sc cur q attrs) as [[sc' cur']|] eqn:P; [|discriminate]. intros xs rs es E F X. destruct (qname_text other c q) as [[n w]| |] eqn:Q; cbn [obind] in E, F; try discriminate.
    injection E as <-. injection F as <-. cbn [fst snd] in *. revert es X. eapply ok_one; try eassumption. intros es [= <-]. reflexivity.
  - intros xs rs es E F X. destruct (qname_text other c q) as [[n w]| |] eqn:Q; cbn [obind] in E, F; try discriminate.
    destruct (concat_all (fun i => tree other i c) cs) as [ys| |] eqn:Ec; cbn [obind] in E; try discriminate. destruct (concat_all (fun i => rtree other i c) cs) as [ss| |] eqn:Fc; cbn [obind] in F; try discriminate.
    injection E as <-. injection F as <-. cbn [fst snd] in *. rewrite (doomed_trees _ _ _ Ec) in O. cbn [orb] in O. destruct (place sc cur q attrs) as [[sc' cur']|] eqn:P; [|discriminate].
    revert es X. eapply ok_one; try eassumption. intros es X. refine (ALL cs sc' cur' c (uri_of pu n) _ T _ _ ys ss es Ec Fc X).
    + clear - IH. induction cs as [|i cs IHc]; [exact I|]. split; [exact (IH i)|exact IHc].
    + now apply (place_stands sc pu q attrs c n w sc' cur cur').
    + now rewrite O, orb_true_r.
  - apply andb_prop in O as [O1 O2]. destruct (eval other c e) as [v|]; cbn [lift obind]; [|intros xs rs es E; discriminate]. destruct (truth v).
    + apply (ALL a sc cur); auto. clear - IH. induction a as [|i a IHa]; [exact I|]. split; [exact (IH i)|exact IHa].
    + apply (ALL b sc cur); auto. clear - IH. induction b as [|i b IHb]; [exact I|]. split; [exact (IH i)|exact IHb].
  - destruct (eval other c e) as [v|] eqn:E; cbn [lift obind]; [|intros xs rs es ?; discriminate]. destruct (iterate v) as [l|] eqn:It; cbn [lift obind]; [|intros xs rs es ?; discriminate].
    apply ok_counted. intros k u J. apply (ALL body sc None); [clear - IH; induction body as [|i body IHb]; [exact I|split; [exact (IH i)|exact IHb]]| |exact I|exact O].
    apply loop_tidy; [intros; exact I|intros z; now left|exact T|]. intros w. apply (iterate_fine proper_value) with (v := v) (l := l); try assumption; try (intros; exact I). now apply (eval_proper c e).
  - intros xs rs es E. discriminate.
Qed.
Lemma placed_trees is c pu : proper c -> forallb (placed [] None) is = true -> ok [] pu (trees other is c) (rtrees other is c).
Proof. intros T O. apply ok_concat. intros i J. apply (placed_tree i [] None); [exact T|exact I|]. exact (proj1 (forallb_forall _ _) O i J). Qed.
End Placed.

Lemma meant_placed ns n p m texts names times : meant ns n p m texts names times -> forallb (placed [] None) (items_of (n ++ ".xml")) = true.
Proof. destruct 1; vm_compute; reflexivity. Qed.

(** ** The payloads of the package are so *)
Definition good_val (v : val) : Prop := forall w, within v w -> proper_value w.
Lemma proper_all c : Forall (fun kv => good_val (snd kv)) c <-> proper c.
Proof. unfold proper, tidy. rewrite Forall_forall. split; [intros H k v w J; now apply (H (k, v) J)|intros H [k v] J w W; now apply (H k v w)]. Qed.
Lemma good_dict d : proper_ns d -> Forall (fun kv => good_val (snd kv)) d -> good_val (VDict d).
Proof. intros P F w W. inversion W as [|? k v ? J K|]; subst; [exact P|]. rewrite Forall_forall in F. now apply (F (k, v) J). Qed.
Lemma good_list l : Forall good_val l -> good_val (VList l).
Proof. intros F w W. inversion W as [| |? v ? J K]; subst; [exact I|]. rewrite Forall_forall in F. now apply (F v J). Qed.
Lemma good_map {A} (f : A -> val) l : Forall (fun a => good_val (f a)) l -> good_val (VList (map f l)).
Proof. intros F. apply good_list. rewrite Forall_forall in *. intros v J. apply in_map_iff in J as (a & <- & J). now apply F. Qed.
Lemma good_maps {A} (f : A -> val) l : (forall a, good_val (f a)) -> good_val (VList (map f l)).
Proof. intros F. apply good_map. apply Forall_forall. auto. Qed.
Lemma good_or_none {A} (f : A -> val) o : (forall a, o = Some a -> good_val (f a)) -> good_val (or_none f o).
Proof. destruct o; cbn [or_none]; [auto|]. intros _ w W. inversion W; subst. exact I. Qed.
Lemma good_scalar v : match v with VDict _ | VList _ => False | _ => True end -> good_val v.
Proof. intros S w W. destruct W; [|contradiction|contradiction]. destruct v; try contradiction; exact I. Qed.
Lemma good_number n : good_val (number_val n). Proof. destruct n; now apply good_scalar. Qed.
Lemma good_given k o : (forall v, o = Some v -> good_val v) -> Forall (fun kv => good_val (snd kv)) (given k o).
Proof. destruct o; cbn [given]; [intros H; constructor; [now apply H|constructor]|constructor]. Qed.
Ltac calm := repeat first
  [ apply good_number
  | apply good_dict; [left; reflexivity|]
  | apply Forall_nil
  | apply Forall_app; split
  | apply good_given; let v := fresh in let E := fresh in intros v E; match type of E with option_map _ ?o = _ => destruct o; [injection E as <-|discriminate E] end
  | apply Forall_cons; [cbn [snd]|]
  | apply good_or_none; intros ? ?
  | apply good_maps; intros ?; solve [calm]
  | match goal with |- good_val (VList []) => apply good_list end
  | now apply good_scalar ].
Section Payloads.
Variable ns : string -> string.
Definition known (n : string) : Prop := get String.eqb n measurement_namespaces = Some (ns n).
Lemma good_measurement m : known (m_name m) -> good_val (measurement_val ns m).
Proof. intros K. unfold measurement_val. apply good_dict; [right; exists (m_name m), (ns (m_name m)); auto|]. unfold power_val. calm. Qed.
Lemma good_signal s : Forall known (measurement_names (s_measurement s)) -> good_val (signal_val ns s).
Proof. intros K. unfold signal_val, interval_val, period. calm. match goal with E : s_measurement s = _ |- _ => rewrite E in K end. inversion K; subst. now apply good_measurement. Qed.
Lemma good_target t : good_val (target_val t). Proof. unfold target_val, text. calm. Qed.
Lemma good_answer_val r : good_val (answer_val r). Proof. unfold answer_val, text. calm. Qed.
Lemma good_flat {A} (f : A -> list string) l : Forall known (flat_map f l) -> Forall (fun a => Forall known (f a)) l.
Proof. rewrite !Forall_forall. intros H a I. apply Forall_forall. intros b J. apply H. apply in_flat_map. eauto. Qed.
Lemma good_event_val e : Forall known (event_names e) -> good_val (event_val ns e).
Proof.
  intros K. unfold event_val, descriptor_val, active_period_val, period, text. calm; try apply good_target. apply good_map. apply good_flat in K. eapply Forall_impl; [|exact K]. apply good_signal.
Qed.
Lemma good_description d : Forall known (measurement_names (rd_measurement d)) -> good_val (description_val ns d).
Proof.
  intros K. unfold description_val, sampling_val, text. calm; try apply good_target. match goal with E : rd_measurement d = _ |- _ => rewrite E in K end. inversion K; subst. now apply good_measurement.
Qed.
Lemma good_offer_val o : Forall known (offer_names o) -> good_val (offer_val ns o).
Proof. intros K. unfold offer_val, period. calm. apply good_map. apply good_flat in K. eapply Forall_impl; [|exact K]. apply good_description. Qed.
Lemma good_request r : good_val (report_request_val r). Proof. unfold report_request_val, specifier_payload_val, period. calm. Qed.
Lemma meant_proper n p m texts names times : meant ns n p m texts names times -> Forall known names -> proper p.
Proof.
  intros M K. apply proper_all. destruct M;
    unfold distribute_event_payload, created_event_payload, update_report_payload, poll_payload, create_party_payload, created_party_payload, cancel_party_payload, canceled_party_payload, query_registration_payload,
      request_reregistration_payload, register_report_payload, registered_report_payload, create_report_payload, pending_reports_payload, response_message_payload, request_event_payload, cancel_report_payload,
      updated_report_payload, create_opt_payload, opt_answer_payload, cancel_opt_payload, event_response_val, report_val, report_interval_val, report_payload_val, profile_val, cancel_val, available_val, text, period; calm;
    try apply good_answer_val; try apply good_target; try apply good_request.
  - apply good_map. apply good_flat in K. eapply Forall_impl; [|exact K]. apply good_event_val.
  - apply good_map. apply good_flat in K. eapply Forall_impl; [|exact K]. apply good_offer_val.
  - destruct (cr_ids c); cbn [request_ids_val]; calm.
Qed.
Lemma meant_proper_further n p m texts names times further : meant ns n p m texts names times -> Forall known names ->
  (forall k v d, In (k, v) further -> within v (VDict d) -> get String.eqb "ns" d = None) -> proper (p ++ further)%list.
Proof.
  intros M K F. apply proper_all, Forall_app. split; [apply proper_all; now apply (meant_proper n p m texts names times)|]. apply Forall_forall. intros [k v] J w W. destruct w; try exact I. left. now apply (F k v).
Qed.
End Payloads.
