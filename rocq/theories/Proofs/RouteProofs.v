(** Routes (Model/Routes.v). *)
From Coq Require Import NArith String Ascii List Bool Lia Sorted.
From Verif.Base Require Import Result Dict PyStr.
From Verif.Model Require Import Enums Routes.
From Verif.Spec Require Import RouteSpec.
From Verif.Proofs Require Import ChoiceProofs.
Import ListNotations.
Local Open Scope string_scope.

(** ** Slashes at the end *)
Lemma rstrip_slashes n : rstrip (slashes n) = "".
Proof. induction n as [|n IH]; cbn [slashes rstrip]; [reflexivity|]. now rewrite IH. Qed.
Lemma rstrip_app a b : rstrip (a ++ b) = match rstrip b with "" => rstrip a | t => a ++ t end.
Proof.
  induction a as [|c a IH]; cbn [append rstrip]; [now destruct (rstrip b)|]. rewrite IH. destruct (rstrip b) as [|d t]; [reflexivity|]. now destruct (a ++ String d t) eqn:E; [destruct a; discriminate E|].
Qed.
Lemma rstrip_app_slashes a n : rstrip (a ++ slashes n) = rstrip a.
Proof. now rewrite rstrip_app, rstrip_slashes. Qed.
Lemma rstrip_split s : exists n, s = rstrip s ++ slashes n.
Proof.
  induction s as [|c s (n & IH)]; [now exists 0|]. cbn [rstrip]. destruct (rstrip s) as [|d t] eqn:E.
  - destruct (Ascii.eqb c "/") eqn:C; [apply Ascii.eqb_eq in C as ->; exists (S n); cbn [slashes append]; now rewrite IH at 1|exists n; cbn [append]; now rewrite IH at 1].
  - exists n. cbn [append] in *. now rewrite IH at 1.
Qed.
Lemma same_place_spec p q : same_place p q <-> rstrip p = rstrip q.
Proof.
  split.
  - intros (r & n & m & -> & ->). now rewrite !rstrip_app_slashes.
  - intros E. destruct (rstrip_split p) as (n & P), (rstrip_split q) as (m & Q). exists (rstrip p), n, m. split; [exact P|]. now rewrite E.
Qed.
Lemma rstrip_no_slash s : ~ has_slash s -> rstrip s = s.
Proof.
  induction s as [|c s IH]; [reflexivity|]. cbn [has_slash rstrip]. intros N. rewrite IH by tauto. destruct s; [|reflexivity]. destruct (Ascii.eqb c "/") eqn:C; [apply Ascii.eqb_eq in C; tauto|reflexivity].
Qed.
Lemma rstrip_start p : p = "" \/ (exists r, p = "/" ++ r) -> rstrip p = "" \/ exists r, rstrip p = String "/" r.
Proof.
  intros [->|(r & ->)]; [now left|]. change ("/" ++ r) with (String "/" r). cbn [rstrip]. destruct (rstrip r) as [|c t]; [left; reflexivity|]. right. now exists (String c t).
Qed.

(** ** URLs *)
Lemma all_chars_slash (P : ascii -> Prop) s : ~ P "/"%char -> all_chars P s -> ~ has_slash s.
Proof. intros N. induction s as [|c s IH]; cbn [all_chars has_slash]; [tauto|]. intros (A & B) [->|H]; [contradiction|now apply IH]. Qed.
Lemma not_letter c : existsb (Ascii.eqb c) (list_ascii_of_string "abcdefghijklmnopqrstuvwxyzABCDEFGHIJKLMNOPQRSTUVWXYZ0123456789-_~") = false -> ~ letter c.
Proof. intros E L. unfold letter in L. rewrite <- not_true_iff_false in E. apply E. apply existsb_exists. exists c. split; [exact L|apply Ascii.eqb_refl]. Qed.
Lemma scheme_skipped scheme r : all_chars letter scheme -> after_scheme (scheme ++ "://" ++ r) = Some r.
Proof.
  induction scheme as [|c s IH]; intros A; [destruct r; reflexivity|]. destruct A as (L & A). cbn [append after_scheme]. cbn [strip_prefix]. destruct (Ascii.eqb ":" c) eqn:E; [apply Ascii.eqb_eq in E as <-; exfalso; revert L; apply not_letter; reflexivity|]. now apply IH.
Qed.
Lemma host_skipped host r : ~ has_slash host -> from_slash (host ++ String "/" r) = String "/" r.
Proof. induction host as [|c h IH]; intros N; [reflexivity|]. cbn [append from_slash has_slash] in *. destruct (Ascii.eqb c "/") eqn:E; [apply Ascii.eqb_eq in E; tauto|]. apply IH. tauto. Qed.
Lemma host_no_slash h : plain_host h -> ~ has_slash h.
Proof. intros (_ & A). revert A. apply all_chars_slash. intros [L|[H|H]]; [revert L; apply not_letter; reflexivity|discriminate H|discriminate H]. Qed.
Lemma request_path url scheme host path service : located url scheme host path -> path_of (request_url url service) = Some (rstrip path ++ "/" ++ service).
Proof.
  intros (-> & A & H & P). assert (N := host_no_slash host H). destruct H as (NE & _). destruct P as (_ & _ & P). unfold request_url, path_of.
  assert (R : rstrip (scheme ++ "://" ++ host ++ path) = scheme ++ "://" ++ host ++ rstrip path).
  { rewrite <- !str_app_assoc. rewrite rstrip_app. destruct (rstrip path) as [|c t]; [|reflexivity]. rewrite str_app_nil. rewrite rstrip_app, (rstrip_no_slash host N). destruct host; [contradiction|]. reflexivity. }
  rewrite R, !str_app_assoc, scheme_skipped by exact A. cbn [option_map]. f_equal. destruct (rstrip_start path P) as [->|(r & ->)]; [apply (host_skipped host service N)|]. apply (host_skipped host (r ++ "/" ++ service) N).
Qed.

(** ** Routes *)
Lemma routes_ok prefix : (exists t, routes prefix = Ok t) <-> prefix = "" \/ exists r, prefix = "/" ++ r.
Proof.
  unfold routes. split.
  - destruct prefix as [|c r]; [now left|]. intros (t & E). right. exists r. destruct (rstrip_split (String c r)) as (n & S). destruct (rstrip (String c r)) as [|d u]; cbn [append] in S.
    + destruct n as [|n]; [discriminate S|]. now injection S as -> _.
    + cbn [mapM services] in E. destruct (startswith "/" (String d u ++ "/" ++ sc_name EventService)) eqn:D; [|discriminate E]. apply startswith_spec in D as (v & D). injection D as -> _. now injection S as -> _.
  - intros H. apply rstrip_start in H as [->|(r & ->)]; eexists; reflexivity.
Qed.
Lemma routes_are prefix t : routes prefix = Ok t -> t = map (fun s => (rstrip prefix ++ "/" ++ sc_name s, s)) services.
Proof.
  unfold routes. generalize services. intros l. revert t. induction l as [|s l IH]; intros t E; cbn [mapM] in E; [now injection E as <-|].
  destruct (startswith "/" (rstrip prefix ++ "/" ++ sc_name s)); [|discriminate E]. cbn [bind] in E. destruct (mapM _ l) as [t'|] eqn:M; [|discriminate E]. injection E as <-. cbn [map]. f_equal. now apply IH.
Qed.
Lemma last_part a b s u : ~ has_slash s -> ~ has_slash u -> a ++ "/" ++ s = b ++ "/" ++ u -> a = b /\ s = u.
Proof.
  intros N M. revert b. induction a as [|c a IH]; intros b E.
  - destruct b as [|d b]; [now injection E as ->|]. exfalso. injection E as <- E. apply N. rewrite E. clear. induction b as [|c b IH]; cbn [append has_slash]; [now left|right; exact IH].
  - destruct b as [|d b].
    + exfalso. injection E as -> E. apply M. rewrite <- E. clear. induction a as [|c a IH]; cbn [append has_slash]; [now left|right; exact IH].
    + injection E as -> E. destruct (IH b E) as [-> ->]. now split.
Qed.
Lemma service_names c : In c services -> ~ has_slash (sc_name c).
Proof. intros I. cbn in I. repeat (destruct I as [<-|I]; [cbn; intuition discriminate|]). destruct I. Qed.
Lemma services_once : NoDup (map sc_name services).
Proof. cbn. repeat constructor; cbn; intuition discriminate. Qed.
Lemma reached url scheme host path prefix table service c : located url scheme host path -> routes prefix = Ok table -> ~ has_slash service ->
  ((exists p, path_of (request_url url service) = Some p /\ get String.eqb p table = Some c) <-> same_place path prefix /\ In c services /\ sc_name c = service).
Proof.
  intros L R N. rewrite same_place_spec, (request_path url scheme host path service L), (routes_are _ _ R). clear L R.
  assert (NS := service_names). revert NS. assert (ND := services_once). revert ND. generalize services. intros l ND NS. split.
  - intros (p & P & G). assert (P' : p = rstrip path ++ "/" ++ service) by congruence. subst p. clear P. induction l as [|s l IH]; [discriminate G|]. cbn [map get] in G. destruct (String.eqb (rstrip path ++ "/" ++ service) _) eqn:E.
    + injection G as ->. apply String.eqb_eq in E. apply last_part in E as [E ->]; [|exact N|apply NS; now left]. split; [exact E|]. split; [now left|reflexivity].
    + inversion ND. destruct IH as (A & B & C); [assumption|intros d D; apply NS; now right|exact G|]. split; [exact A|]. split; [now right|exact C].
  - intros (E & I & <-). exists (rstrip path ++ "/" ++ sc_name c). split; [reflexivity|]. rewrite E. clear E. induction l as [|s l IH]; [destruct I|]. cbn [map get]. inversion ND as [|x xs NI ND']; subst.
    destruct (String.eqb (rstrip prefix ++ "/" ++ sc_name c) _) eqn:E.
    + apply String.eqb_eq in E. apply last_part in E as [_ E]; [|apply NS; exact I|apply NS; now left]. destruct I as [->|I]; [reflexivity|]. exfalso. apply NI. rewrite <- E. now apply in_map.
    + destruct I as [->|I]; [now rewrite String.eqb_refl in E|]. apply IH; [exact ND'|intros d D; apply NS; now right|exact I].
Qed.

(** ** Handlers of a class *)
Lemma get_in {A} (d : dict string A) k v : NoDup (map fst d) -> (get String.eqb k d = Some v <-> In (k, v) d).
Proof.
  induction d as [|[a b] d IH]; cbn [map fst get]; intros ND; [split; [discriminate|intros []]|]. inversion ND as [|x xs NI ND']; subst. destruct (String.eqb k a) eqn:E.
  - apply String.eqb_eq in E as ->. split; [intros [= ->]; now left|]. intros [[= ->]|I]; [reflexivity|]. exfalso. apply NI. now apply (in_map fst) in I.
  - rewrite IH by exact ND'. split; [now right|]. intros [[= -> _]|I]; [now rewrite String.eqb_refl in E|exact I].
Qed.
Lemma leb_refl s : String.leb s s = true. Proof. destruct (String.leb_total s s); assumption. Qed.
Lemma handlers_fold c (ND : NoDup (map fst (sc_methods c))) t m : forall l d, StronglySorted (fun x y => String.leb x y = true) l ->
  (get String.eqb t (fold_left (fun d m => match get String.eqb m (sc_methods c) with Some (Some t) => set String.eqb t m d | _ => d end) l d) = Some m <->
   (In m l /\ marked c m t /\ forall m', In m' l -> marked c m' t -> String.leb m' m = true) \/ ((forall m', In m' l -> ~ marked c m' t) /\ get String.eqb t d = Some m)).
Proof.
  induction l as [|x l IH]; intros d SS; cbn [fold_left].
  - split; [intros G; right; split; [intros ? []|exact G]|]. intros [([] & _)|(_ & G)]; exact G.
  - inversion SS as [|y ys SS' F]; subst. rewrite Forall_forall in F. rewrite IH by exact SS'.
    assert (MX : marked c x t <-> get String.eqb x (sc_methods c) = Some (Some t)) by (unfold marked; now rewrite get_in).
    destruct (get String.eqb x (sc_methods c)) as [[t'|]|] eqn:G.
    2, 3: (assert (NX : ~ marked c x t) by (rewrite MX; discriminate)); split;
      [intros [(I & M & B)|(N & D)]; [left; split; [now right|]; split; [exact M|]; intros m' [<-|J] K; [contradiction|now apply B]|right; split; [intros m' [<-|J]; [exact NX|now apply N]|exact D]]
      |intros [([<-|I] & M & B)|(N & D)]; [contradiction|left; split; [exact I|]; split; [exact M|]; intros m' J; apply B; now right|right; split; [intros m' J; apply N; now right|exact D]]].
    rewrite (get_set String.eqb String.eqb_eq). destruct (String.eqb t t') eqn:T.
    + apply String.eqb_eq in T as <-. assert (X : marked c x t) by (now apply MX). split.
      * intros [(I & M & B)|(N & [= ->])]; left.
        -- split; [now right|]. split; [exact M|]. intros m' [<-|J] K; [now apply F|now apply B].
        -- split; [now left|]. split; [exact X|]. intros m' [<-|J] K; [apply leb_refl|now elim (N m')].
      * intros [([<-|I] & M & B)|(N & D)].
        -- destruct (existsb (fun m' => match get String.eqb m' (sc_methods c) with Some (Some t') => String.eqb t t' | _ => false end) l) eqn:E.
           ++ left. apply existsb_exists in E as (m' & J & K). destruct (get String.eqb m' (sc_methods c)) as [[t''|]|] eqn:G'; try discriminate K. apply String.eqb_eq in K as <-.
              assert (M' : marked c m' t) by (unfold marked; now apply get_in). assert (E : m' = x) by (apply String.leb_antisym; [apply B; [now right|exact M']|now apply F]). subst m'.
              split; [exact J|]. split; [exact X|]. intros m' J' K'. apply B; [now right|exact K'].
           ++ right. split; [|reflexivity]. intros m' J K. unfold marked in K. apply get_in in K; [|exact ND]. assert (H : existsb (fun m' => match get String.eqb m' (sc_methods c) with Some (Some t') => String.eqb t t' | _ => false end) l = true) by (apply existsb_exists; exists m'; split; [exact J|]; rewrite K; apply String.eqb_refl). congruence.
        -- left. split; [exact I|]. split; [exact M|]. intros m' J. apply B. now right.
        -- now elim (N x (or_introl eq_refl)).
    + assert (NX : ~ marked c x t) by (rewrite MX; intros [= ->]; now rewrite String.eqb_refl in T). split.
      * intros [(I & M & B)|(N & D)]; [left; split; [now right|]; split; [exact M|]; intros m' [<-|J] K; [contradiction|now apply B]|right; split; [intros m' [<-|J]; [exact NX|now apply N]|exact D]].
      * intros [([<-|I] & M & B)|(N & D)]; [contradiction|left; split; [exact I|]; split; [exact M|]; intros m' J; apply B; now right|right; split; [intros m' J; apply N; now right|exact D]].
Qed.

Lemma ascii_compare a b : Ascii.compare a b = N.compare (N_of_ascii a) (N_of_ascii b). Proof. reflexivity. Qed.
Lemma leb_trans x y z : String.leb x y = true -> String.leb y z = true -> String.leb x z = true.
Proof.
  unfold String.leb. revert y z. induction x as [|a x IH]; intros [|b y] [|c z]; cbn [String.compare]; try discriminate; try reflexivity. rewrite !ascii_compare.
  destruct (N.compare_spec (N_of_ascii a) (N_of_ascii b)) as [E|L|G], (N.compare_spec (N_of_ascii b) (N_of_ascii c)) as [E'|L'|G']; try discriminate; destruct (N.compare_spec (N_of_ascii a) (N_of_ascii c)) as [F|F|F]; try reflexivity; try lia.
  apply IH.
Qed.
Lemma handlers_spec c t m : NoDup (map fst (sc_methods c)) ->
  (get String.eqb t (handlers c) = Some m <-> marked c m t /\ forall m', marked c m' t -> String.leb m' m = true).
Proof.
  intros ND. unfold handlers. rewrite (handlers_fold c ND t m).
  - split.
    + intros [(_ & M & B)|(_ & G)]; [|discriminate G]. split; [exact M|]. intros m' K. apply B; [|exact K]. apply sorted_in. unfold marked in K. now apply (in_map fst) in K.
    + intros (M & B). left. split; [apply sorted_in; now apply (in_map fst) in M|]. split; [exact M|]. intros m' _. apply B.
  - apply Sorted_StronglySorted; [|apply sorted_sorted]. intros x y z. apply leb_trans.
Qed.
Lemma sends_names s t : In (s, t) sends -> ~ has_slash s.
Proof. intros I. cbn in I. repeat (destruct I as [[= <- <-]|I]; [cbn; intuition discriminate|]). destruct I. Qed.
