(** Facts about normalize_dict and xmltodict in general. *)
From Coq Require Import ZArith String Ascii List Bool Lia Arith.
From Verif.Base Require Import Result Dict PyStr ListExtra.
From Verif.Model Require Import Duration DateTime Text Normalize Xml.
From Verif.Spec Require Import Calendar Instants TextSpec MessageSpec.
From Verif.Proofs Require Import TextProofs DurationProofs DateTimeProofs.
Import ListNotations.
Local Open Scope string_scope.
Local Open Scope Z_scope.

(** ** Texts *)
Definition unblank (s : string) : Prop := all_chars (fun c => ~ blank c) s.

Lemma all_chars_app P a b : all_chars P (a ++ b) <-> all_chars P a /\ all_chars P b.
Proof. induction a as [|c a IH]; simpl; [tauto|]. rewrite IH. tauto. Qed.

Lemma unblank_one_line s : unblank s -> s <> "" -> one_line s.
Proof.
  intros U N. split; [assumption|]. split; [split|].
  - intros c r ->. apply U.
  - intros p c ->. apply all_chars_app in U as [_ U]. apply U.
  - induction s as [|c s IH]; simpl; [tauto|]. intros [E|H].
    + destruct U as [U _]. apply U. subst c. unfold blank. simpl. tauto.
    + destruct U as [_ U]. destruct s; [contradiction|]. apply IH; [assumption|discriminate|assumption].
Qed.

Lemma digit_unblank c : is_digit c = true -> ~ blank c.
Proof.
  unfold is_digit, blank. intros D B. simpl in B.
  repeat (destruct B as [<-|B]; [discriminate D|]). contradiction.
Qed.

Lemma all_digits_unblank s : all_digits s = true -> unblank s.
Proof.
  induction s as [|c s IH]; simpl; [intros _; exact I|]. intros H. apply andb_true_iff in H as [C R].
  split; [now apply digit_unblank | now apply IH].
Qed.

Lemma digit_char_mod n : is_digit (digit_char (n mod 10)) = true.
Proof.
  pose proof (Z.mod_pos_bound n 10 ltac:(lia)) as B. set (m := n mod 10) in *. clearbody m.
  assert (E : m = 0 \/ m = 1 \/ m = 2 \/ m = 3 \/ m = 4 \/ m = 5 \/ m = 6 \/ m = 7 \/ m = 8 \/ m = 9) by lia.
  repeat (destruct E as [->|E]; [reflexivity|]). subst. reflexivity.
Qed.

Lemma dec_acc_digits fuel : forall n acc, all_digits acc = true -> all_digits (dec_acc fuel n acc) = true.
Proof.
  induction fuel as [|f IH]; intros n acc A; cbn [dec_acc]; [assumption|]. cbv zeta.
  assert (B : all_digits (String (digit_char (n mod 10)) acc) = true) by (cbn [all_digits]; now rewrite A, digit_char_mod).
  destruct (n / 10 =? 0); [assumption|]. now apply IH.
Qed.
Lemma dec_unblank n : unblank (dec n).
Proof. apply all_digits_unblank. now apply dec_acc_digits. Qed.
Lemma pad_unblank w n : unblank (pad w n).
Proof. unfold pad. apply all_chars_app. split; [apply all_digits_unblank, zeros_digits | apply dec_unblank]. Qed.
Lemma char_unblank c r : is_space c = false -> unblank r -> unblank (String c r).
Proof. intros C R. split; [now apply not_space_blank | assumption]. Qed.
Lemma str_of_Z_unblank z : unblank (str_of_Z z).
Proof. unfold str_of_Z. destruct (z <? 0); [apply char_unblank; [reflexivity|]|]; apply dec_unblank. Qed.
Lemma unblank_app a b : unblank a -> unblank b -> unblank (a ++ b).
Proof. intros A B. apply all_chars_app. now split. Qed.
Lemma strftime_unblank u : unblank (strftime_utc u).
Proof.
  unfold strftime_utc.
  repeat (apply unblank_app; [first [apply dec_unblank | apply pad_unblank | apply char_unblank; [reflexivity | exact I]]|]).
  apply char_unblank; [reflexivity | exact I].
Qed.
Lemma timedeltaformat_unblank td : unblank (timedeltaformat td).
Proof.
  unfold timedeltaformat. cbv zeta.
  assert (A : forall (b : bool) f g, unblank f -> unblank g -> unblank (if b then f ++ g else f))
    by (intros [|] f g F G; [now apply unblank_app | assumption]).
  assert (U : forall z s, unblank s -> unblank (str_of_Z z ++ s)) by (intros; apply unblank_app; [apply str_of_Z_unblank | assumption]).
  repeat (apply A; [|first [apply U; apply char_unblank; [reflexivity | exact I] | apply char_unblank; [reflexivity | exact I]]]).
  apply char_unblank; [reflexivity | exact I].
Qed.

Lemma flatten_one_line s : one_line s -> flatten_xml s = s.
Proof.
  intros (_ & T & N). rewrite flatten_one by now apply has_char_no_char.
  rewrite <- (strip_unique "" s "") at 2; try exact I; [|assumption]. cbn [append]. now rewrite str_app_nil.
Qed.
Lemma text_val_one_line s : one_line s -> text_val s = VStr s.
Proof. intros O. unfold text_val. rewrite flatten_one_line by assumption. destruct O as [O _]. now destruct s. Qed.

Lemma string_end d t : exists q e, String d t = q ++ String e "".
Proof.
  revert d. induction t as [|c t IH]; intros d; [now exists "", d|].
  destruct (IH c) as (q & e & E). exists (String d q), e. cbn [append]. now rewrite E.
Qed.
Lemma string_end_inj p : forall q c e, q ++ String e "" = p ++ String c "" -> q = p /\ e = c.
Proof.
  induction p as [|d p IH]; intros [|d' q] c e E; cbn [append] in E.
  - injection E as ->. now split.
  - injection E as _ E. destruct q; discriminate.
  - injection E as _ E. destruct p; discriminate.
  - injection E as E1 E2. destruct (IH _ _ _ E2) as [-> ->]. subst. now split.
Qed.

(** The text of an element never has line feeds or white space at its ends. *)
Lemma flatten_trimmed s : trimmed (flatten_xml s) /\ ~ has_char "010" (flatten_xml s).
Proof.
  rewrite flatten_xml_lines.
  assert (P : Forall (fun w => trimmed w /\ ~ has_char "010" w) (map strip (split newline s))).
  { apply Forall_map. apply Forall_forall. intros w I. destruct (strip_spec w) as (a & b & E & A & T & B).
    split; [assumption|]. assert (N : ~ has_char "010" w).
    { clear - I. revert w I. induction s as [|c s IH]; intros w I.
      - simpl in I. destruct I as [<-|[]]. simpl. tauto.
      - cbn [split] in I. destruct (Ascii.eqb_spec c newline) as [->|C]; unfold newline in *.
        + destruct I as [<-|I]; [simpl; tauto | now apply IH].
        + destruct (split _ s) as [|x l]; [destruct I as [<-|[]]; simpl; intros [?|[]]; congruence|].
          destruct I as [<-|I]; [simpl; intros [E|H]; [congruence|]; revert H; apply IH; now left | apply IH; now right]. }
    intros H. apply N. rewrite E. apply has_char_app. right. apply has_char_app. now left. }
  induction P as [|w l [T N] P IH].
  - simpl. repeat split; try tauto; [discriminate | intros [|? p] c; discriminate].
  - rewrite join_empty_cons. destruct IH as [[I1 I2] IN]. split.
    + split.
      * intros c r E. destruct w as [|d w]; [now apply (I1 c r)|]. injection E as <- _. destruct T as [T _]. now apply (T d w).
      * intros p c E. destruct (join "" l) as [|d t] eqn:J.
        -- rewrite str_app_nil in E. destruct T as [_ T]. now apply (T p c).
        -- destruct (string_end d t) as (q & e & Q). rewrite Q in E.
           assert (X : (w ++ q) ++ String e "" = p ++ String c "") by (rewrite <- E; apply str_app_assoc).
           apply string_end_inj in X as [_ <-]. now apply (I2 q e).
    + intros H. apply has_char_app in H as [H|H]; contradiction.
Qed.

(** ** What is taken for a number *)
Lemma is_digit_digit c : is_digit c = true <-> digit c.
Proof.
  unfold is_digit, digit. cbv zeta. rewrite andb_true_iff, !N.leb_le. tauto.
Qed.
Lemma all_digits_chars s : all_digits s = true <-> all_chars digit s.
Proof. induction s as [|c s IH]; simpl; [tauto|]. now rewrite andb_true_iff, is_digit_digit, IH. Qed.
Lemma digits_and_dots_chars s : digits_and_dots s = true <-> all_chars (fun c => digit c \/ c = "."%char) s.
Proof. induction s as [|c s IH]; simpl; [tauto|]. now rewrite andb_true_iff, orb_true_iff, is_digit_digit, IH, Ascii.eqb_eq. Qed.

Lemma unsigned_cases (P : string -> Prop) s : (forall r, ~ P (String "-" r)) ->
  ((exists r, (s = r \/ s = String "-" r) /\ r <> "" /\ P r) <-> unsigned s <> "" /\ P (unsigned s)).
Proof.
  intros M. destruct s as [|c s]; simpl.
  - split; [intros (r & [<-|H] & N & _); [contradiction|discriminate] | tauto].
  - destruct (Ascii.eqb_spec c "-") as [->|C].
    + split.
      * intros (r & [<-|H] & N & X); [now apply M in X | injection H as ->; now split].
      * intros [N X]. exists s. split; [now right | now split].
    + split.
      * intros (r & [<-|H] & N & X); [now split | congruence].
      * intros [N X]. exists (String c s). split; [now left | now split].
Qed.

Lemma looks_int_spec s : looks_int s = true <-> like_integer s.
Proof.
  unfold like_integer. rewrite (unsigned_cases (all_chars digit)).
  2:{ intros r [D _]. apply is_digit_digit in D. discriminate. }
  rewrite <- all_digits_chars. unfold looks_int. destruct (unsigned s); [|intuition congruence].
  split; [discriminate | intros [N _]; contradiction].
Qed.
Lemma looks_float_spec s : looks_float s = true <-> like_number s.
Proof.
  unfold like_number. rewrite (unsigned_cases (all_chars (fun c => digit c \/ c = "."%char))).
  2:{ intros r [[D|D] _]; [apply is_digit_digit in D|]; discriminate. }
  rewrite <- digits_and_dots_chars. unfold looks_float. destruct (unsigned s); [|intuition congruence].
  split; [discriminate | intros [N _]; contradiction].
Qed.
Lemma integer_number s : like_integer s -> like_number s.
Proof.
  intros (r & E & N & D). exists r. repeat (split; [assumption|]). clear - D.
  induction r as [|c r IH]; simpl in *; [trivial|]. destruct D. auto.
Qed.

Lemma str_of_Z_like z : like_integer (str_of_Z z).
Proof.
  unfold str_of_Z. destruct (Z.ltb_spec z 0).
  - exists (dec (- z)). split; [now right|]. split; [apply dec_nonempty; lia | apply all_digits_chars, dec_digits; lia].
  - exists (dec z). split; [now left|]. split; [apply dec_nonempty; lia | apply all_digits_chars, dec_digits; lia].
Qed.
Lemma str_of_Z_one_line z : one_line (str_of_Z z).
Proof.
  apply unblank_one_line; [apply str_of_Z_unblank|]. unfold str_of_Z. destruct (Z.ltb_spec z 0); [discriminate | apply dec_nonempty; lia].
Qed.
Lemma int_text_str z : int_text (str_of_Z z) = z.
Proof.
  unfold str_of_Z. destruct (Z.ltb_spec z 0).
  - unfold int_text. rewrite Ascii.eqb_refl, int_of_dec by lia. lia.
  - unfold int_text. pose proof (dec_head_digit z ltac:(lia)) as (c & r & E & D & _). rewrite E.
    destruct (Ascii.eqb_spec c "-") as [->|C]; [discriminate|]. rewrite <- E. now apply int_of_dec.
Qed.
Lemma like_number_not_bool s : like_number s -> s <> "true" /\ s <> "false".
Proof.
  intros L. apply looks_float_spec in L. split; intros ->; discriminate.
Qed.

(** ** Reading the texts back *)
Definition time_key (k : string) : bool := contains "date_time" k || String.eqb k "dtstart".
Definition duration_key (k : string) : bool := existsb (String.eqb k) ["duration"; "startafter"; "max_period"; "min_period"].

Section Reading.
Context (num : numbers).
Local Notation interpret := (interpret num).

Lemma interpret_text k s : duration_key k = false -> time_key k = false ->
  interpret k (VStr s) =
    if String.eqb s "true" || String.eqb s "false" then Ok (VBool (String.eqb s "true"))
    else if looks_int s then Ok (VInt (int_text s))
    else if looks_float s then (if float_ok num s then Ok (VFloat s) else Raise ValueError)
    else Ok (VStr s).
Proof. unfold duration_key, time_key, Normalize.interpret. intros -> ->. reflexivity. Qed.

Lemma interpret_plain k s : duration_key k = false -> time_key k = false -> s <> "true" -> s <> "false" -> ~ like_number s ->
  interpret k (VStr s) = Ok (VStr s).
Proof.
  intros D T N1 N2 L. rewrite interpret_text by assumption.
  apply String.eqb_neq in N1, N2. rewrite N1, N2. cbn [orb].
  destruct (looks_int s) eqn:I; [apply looks_int_spec, integer_number in I; contradiction|].
  destruct (looks_float s) eqn:F; [apply looks_float_spec in F; contradiction|]. reflexivity.
Qed.
Lemma interpret_plain_iff k s : duration_key k = false -> time_key k = false ->
  (interpret k (VStr s) = Ok (VStr s) <-> s <> "true" /\ s <> "false" /\ ~ like_number s).
Proof.
  intros D T. split; [|intros (A & B & C); now apply interpret_plain].
  rewrite interpret_text by assumption. rewrite <- looks_float_spec.
  destruct (String.eqb_spec s "true"); [discriminate|]. destruct (String.eqb_spec s "false"); [discriminate|]. cbn [orb].
  destruct (looks_int s) eqn:I; [discriminate|].
  destruct (looks_float s); [destruct (float_ok num s); discriminate|]. intros _. repeat split; congruence.
Qed.
Lemma interpret_int k z : duration_key k = false -> time_key k = false -> interpret k (VStr (str_of_Z z)) = Ok (VInt z).
Proof.
  intros D T. rewrite interpret_text by assumption. pose proof (str_of_Z_like z) as L.
  destruct (like_number_not_bool _ (integer_number _ L)) as [A B]. apply String.eqb_neq in A, B. rewrite A, B. cbn [orb].
  apply looks_int_spec in L. now rewrite L, int_text_str.
Qed.
Lemma interpret_bool k b : duration_key k = false -> time_key k = false -> interpret k (VStr (show_bool b)) = Ok (VBool b).
Proof. intros D T. rewrite interpret_text by assumption. now destruct b. Qed.
(** A number is read as something that float() turns into the number. *)
Lemma interpret_number k n : duration_key k = false -> time_key k = false -> good_number num n ->
  exists v, interpret k (VStr (show_number n)) = Ok v /\ to_float num v = Ok (VFloat (show_number n)) /\ v <> VNone /\
            (forall d, v <> VDict d) /\ (forall l, v <> VList l).
Proof.
  intros D T G. destruct n as [z|t]; cbn [show_number].
  - exists (VInt z). rewrite interpret_int by assumption. repeat split; discriminate.
  - destruct G as (_ & A & B & L & F). rewrite interpret_text by assumption.
    apply String.eqb_neq in A, B. rewrite A, B. cbn [orb].
    destruct (looks_int t) eqn:I; [apply looks_int_spec in I; contradiction|]. rewrite F.
    destruct (looks_float t); eexists; (split; [reflexivity|]); (split; [cbn; now rewrite ?F|]); repeat split; discriminate.
Qed.
Lemma interpret_plain_number k n : duration_key k = false -> time_key k = false -> plain_number num n ->
  interpret k (VStr (show_number n)) = Ok (match n with NInt z => VInt z | NFloat t => VFloat t end).
Proof.
  intros D T [G L]. destruct n as [z|t]; cbn [show_number]; [now apply interpret_int|].
  destruct G as (_ & A & B & I & F). rewrite interpret_text by assumption.
  apply String.eqb_neq in A, B. rewrite A, B. cbn [orb].
  destruct (looks_int t) eqn:E; [apply looks_int_spec in E; contradiction|]. apply looks_float_spec in L. now rewrite L, F.
Qed.

(** The value a sent time is read as. *)
Definition read_time (t : datetime) : val := match parse_datetime (show_time t) with Ok (Parsed u) => VTime u | _ => VNone end.
Lemma denotes_days y m d h mi s us off i n :
  denotes y m d h mi s us off i -> ord2ymd n = (y, m, d) ->
  i = ((n * 86400 + h * 3600 + mi * 60 + s) * 1000000 + us) - off.
Proof.
  intros (n' & D & _ & ->) E. apply day_number_ymd2ord in D. apply ord2ymd_spec in E as (E & _). lia.
Qed.
Lemma good_time_read t : good_time t ->
  one_line (show_time t) /\ exists u i, parse_datetime (show_time t) = Ok (Parsed u) /\ read_time t = VTime u /\ dt_denotes t i /\ dt_denotes u i.
Proof.
  intros (i & D & lo & hi & Dlo & Dhi & B).
  apply (denotes_days _ _ _ _ _ _ _ _ _ 364878) in Dlo; [|reflexivity].
  apply (denotes_days _ _ _ _ _ _ _ _ _ 3652059) in Dhi; [|reflexivity].
  pose proof (denotes_instant _ _ D) as D'.
  destruct (round_trip t i D') as (s & u & F & P & O & U); [lia|].
  assert (E : show_time t = s) by (unfold show_time; rewrite F; reflexivity).
  assert (O1 : one_line s).
  { revert F. unfold datetimeformat. destruct (to_utc t) as [v|e]; intros F; [|discriminate F].
    assert (F' : strftime_utc v = s) by congruence. rewrite <- F'. clear - v.
    apply unblank_one_line; [apply strftime_unblank|]. unfold strftime_utc. generalize (dec (dt_year v)). intros [|c r] X; discriminate X. }
  split; [rewrite E; exact O1|].
  exists u, i. unfold read_time. rewrite E, P. split; [reflexivity|]. split; [reflexivity|]. split; [exact D|].
  unfold dt_denotes. rewrite O. exact U.
Qed.
Lemma interpret_time k t : duration_key k = false -> time_key k = true -> good_time t -> interpret k (VStr (show_time t)) = Ok (read_time t).
Proof.
  intros D T G. destruct (good_time_read t G) as (_ & u & i & P & R & _). rewrite R.
  unfold duration_key, time_key, Normalize.interpret in *. rewrite D, T, P. reflexivity.
Qed.
Lemma interpret_duration k td : duration_key k = true -> good_duration td -> interpret k (VStr (timedeltaformat td)) = Ok (VDur td).
Proof.
  intros D (P & M & L). unfold duration_key, Normalize.interpret in *. rewrite D.
  assert (V : td_valid td = true).
  { unfold td_valid, td_days. change us_per_day with 86400000000.
    pose proof (Z.div_mod td 86400000000 ltac:(lia)). pose proof (Z.mod_pos_bound td 86400000000 ltac:(lia)).
    apply andb_true_iff. rewrite !Z.leb_le. lia. }
  rewrite parse_format by assumption. destruct (Z.ltb_spec td 0); [lia|]. change us_per_s with 1000000. rewrite M, Z.sub_0_r. reflexivity.
Qed.
Lemma timedeltaformat_one_line td : one_line (timedeltaformat td).
Proof.
  apply unblank_one_line; [apply timedeltaformat_unblank|]. unfold timedeltaformat. cbv zeta.
  assert (A : forall (b : bool) f g, f <> "" -> (if b then f ++ g else f) <> "") by (intros [|] [|c f] g N; congruence || discriminate).
  repeat apply A. discriminate.
Qed.
Lemma show_bool_one_line b : one_line (show_bool b).
Proof. apply unblank_one_line; [|now destruct b]. destruct b; repeat (apply char_unblank; [reflexivity|]); exact I. Qed.
Lemma show_number_one_line n : good_number num n -> one_line (show_number n).
Proof. destruct n as [z|t]; [intros _; apply str_of_Z_one_line | intros [O _]; exact O]. Qed.
End Reading.

(** ** Rounds of the loop *)
Definition fkey (k : string) : string := match strip_prefix "x_ei_" (normalize_key k) with Some r => r | None => normalize_key k end.
(** Keys for which only lines 210-266 apply. *)
Definition general_key (k : string) : bool :=
  negb (existsb (String.eqb k) ["target"; "pending_reports"; "event"; "request_event"; "created_event"; "report_request"; "report"; "specifier_payload";
                                "report_description"; "event_signal"; "qualified_event_id"]).
Definition fresh_key (k : string) (seen : list string) : bool := negb (existsb (String.eqb k) seen).
Fixpoint fresh_run (seen : list string) (l : list (list string * list string)) : bool :=
  match l with [] => true | (touched, made) :: r => forallb (fun k => fresh_key k seen) touched && fresh_run (seen ++ made)%list r end.
Fixpoint nodupb (l : list string) : bool := match l with [] => true | k :: r => fresh_key k r && nodupb r end.

Lemma vget_none k (d : vdict) : vget k d = None <-> ~ In k (map fst d).
Proof. apply (get_none_iff String.eqb String.eqb_eq). Qed.
Lemma existsb_in k l : existsb (String.eqb k) l = true <-> In k l.
Proof.
  rewrite existsb_exists. split; [intros (x & I & E); apply String.eqb_eq in E; now subst | intros I; exists k; split; [assumption | apply String.eqb_refl]].
Qed.
Lemma fresh_key_in k l : fresh_key k l = true <-> ~ In k l.
Proof. unfold fresh_key. rewrite negb_true_iff, <- existsb_in. destruct (existsb _ l); split; congruence. Qed.
Lemma nodupb_spec l : nodupb l = true <-> NoDup l.
Proof.
  induction l as [|k l IH]; simpl; [split; [constructor | reflexivity]|].
  rewrite andb_true_iff, fresh_key_in, IH. split; [intros [A B]; now constructor | intros H; inversion H; now split].
Qed.
Lemma vset_absent k v (d : vdict) : vget k d = None -> vset k v d = (d ++ [(k, v)])%list.
Proof. apply set_absent. Qed.
Lemma vdel_last k v (d : vdict) : vget k d = None -> vdel k (d ++ [(k, v)])%list = d.
Proof.
  unfold vdel, vget. induction d as [|[k2 v2] d IH]; simpl; [intros _; now rewrite String.eqb_refl|].
  destruct (String.eqb k k2) eqn:E; [discriminate|]. intros H. now rewrite IH.
Qed.
Lemma vset_last k v w (d : vdict) : vget k d = None -> vset k w (d ++ [(k, v)])%list = (d ++ [(k, w)])%list.
Proof.
  unfold vset, vget. induction d as [|[k2 v2] d IH]; simpl; [intros _; now rewrite String.eqb_refl|].
  destruct (String.eqb k k2) eqn:E; [discriminate|]. intros H. now rewrite IH.
Qed.
Lemma vget_app k (a b : vdict) : vget k (a ++ b)%list = match vget k a with Some v => Some v | None => vget k b end.
Proof. apply get_app. Qed.
Lemma vdel_absent k (d : vdict) : vget k d = None -> vdel k d = d.
Proof.
  unfold vdel, vget. induction d as [|[k2 v2] d IH]; simpl; [reflexivity|].
  destruct (String.eqb k k2) eqn:E; [discriminate|]. intros H. now rewrite IH.
Qed.

Section Entries.
Context (num : numbers).
Local Notation nz := (normalize num).

Definition value_of (n : nat) (key : string) (x : val) : result val :=
  match x with
  | VDict x => bind (nz n x) (fun y => Ok (VDict y))
  | VList l => bind (mapM (fun item => match item with
                                       | VDict x => bind (nz n x) (fun y => bind (nz n y) (fun z => Ok (VDict z)))
                                       | x => Ok x
                                       end) l) (fun l => Ok (VList l))
  | x => interpret num key x
  end.
Definition finish (key : string) (v : val) (d : vdict) : result vdict :=
  if String.eqb key "target" then
    bind (new_targets v) (fun ts =>
    Ok (vset "targets_by_type" (VDict (grouped ts)) (vset "targets" (VList (map (fun kv => VDict [kv]) ts)) (vdel "target" d))))
  else tidy num key v (vset key v d).

Lemma entry_value n d k x v : startswith "@" k = false -> value_of n (normalize_key k) x = Ok v ->
  entry num (nz n) d (k, x) = finish (fkey k) v d.
Proof. intros A V. unfold entry. rewrite A. cbv zeta. unfold value_of in V. rewrite V. reflexivity. Qed.

Definition adds (n : nat) (kv : string * val) (out : vdict) : Prop :=
  forall d, (forall k, In k (fkey (fst kv) :: map fst out) -> vget k d = None) -> entry num (nz n) d kv = Ok (d ++ out)%list.

Lemma tidy_general k v d : general_key k = true ->
  tidy num k v d = bind (unnest num k v) (fun r => match r with Some x => Ok (vset k x d) | None => Ok (vdel k d) end).
Proof.
  unfold general_key. rewrite negb_true_iff. cbn [existsb]. rewrite !orb_false_iff. intros H.
  repeat match type of H with _ /\ _ => let A := fresh in destruct H as [A H] end.
  unfold tidy. cbn [existsb]. repeat match goal with E : (_ =? _)%string = false |- _ => rewrite ?E; clear E end. reflexivity.
Qed.
Lemma general_not_target k : general_key k = true -> String.eqb k "target" = false.
Proof. unfold general_key. rewrite negb_true_iff. cbn [existsb]. rewrite orb_false_iff. now intros [H _]. Qed.

Lemma adds_general n k x v r : startswith "@" k = false -> general_key (fkey k) = true ->
  value_of n (normalize_key k) x = Ok v -> unnest num (fkey k) v = Ok r ->
  adds n (k, x) (match r with Some w => [(fkey k, w)] | None => [] end).
Proof.
  intros A G V U d F. rewrite (entry_value n d k x v) by assumption. unfold finish.
  rewrite general_not_target by assumption. rewrite tidy_general by assumption. rewrite U. cbn [bind fst] in *.
  assert (E : vget (fkey k) d = None) by (apply F; now left).
  rewrite vset_absent by assumption. destruct r; [now rewrite vset_last | rewrite vdel_last by assumption; now rewrite app_nil_r].
Qed.

(** A sequence of rounds. *)
Lemma run_from n : forall (steps : list ((string * val) * vdict)) d seen,
  (forall k, In k (map fst d) -> In k seen) ->
  Forall (fun s => adds n (fst s) (snd s)) steps ->
  fresh_run seen (map (fun s => (fkey (fst (fst s)) :: map fst (snd s), map fst (snd s))) steps) = true ->
  foldM (entry num (nz n)) (map fst steps) d = Ok (d ++ concat (map snd steps))%list.
Proof.
  induction steps as [|[kv out] steps IH]; intros d seen S A F.
  - cbn. now rewrite app_nil_r.
  - inversion A as [|? ? A1 A2]; subst. cbn [map fresh_run fst snd] in F. apply andb_true_iff in F as [F1 F2].
    cbn [map foldM fst snd concat]. cbn [fst snd] in A1. rewrite (A1 d).
    + cbn [bind]. rewrite app_assoc. apply (IH (d ++ out)%list (seen ++ map fst out)%list); [|assumption|assumption].
      intros k. rewrite map_app, !in_app_iff. intros [I|I]; [left; now apply S | now right].
    + intros k I. rewrite forallb_forall in F1. specialize (F1 k I). apply fresh_key_in in F1. apply vget_none. intros J. now apply F1, S.
Qed.
Lemma run n steps :
  Forall (fun s => adds n (fst s) (snd s)) steps ->
  fresh_run [] (map (fun s => (fkey (fst (fst s)) :: map fst (snd s), map fst (snd s))) steps) = true ->
  nz (S n) (map fst steps) = Ok (concat (map snd steps)).
Proof. intros A F. cbn [normalize]. now rewrite (run_from n steps [] []). Qed.

(** A payload that a further pass leaves alone. *)
Definition stable (n : nat) (p : vdict) : Prop := nz n p = Ok p.
Lemma stable_intro n p : Forall (fun kv => adds n kv [kv] /\ fkey (fst kv) = fst kv) p -> nodupb (map fst p) = true -> stable (S n) p.
Proof.
  intros A D. unfold stable.
  assert (E1 : map fst (map (fun kv : string * val => (kv, [kv])) p) = p) by (rewrite map_map; cbn; apply map_id).
  assert (E2 : concat (map snd (map (fun kv : string * val => (kv, [kv])) p)) = p).
  { clear. induction p as [|kv p IH]; [reflexivity|]. cbn. f_equal. exact IH. }
  rewrite <- E1 at 1. rewrite <- E2 at 2. apply run.
  - apply Forall_map. eapply Forall_impl; [|exact A]. now intros kv [H _].
  - clear E1 E2. apply nodupb_spec in D. rewrite map_map. cbn [fst snd map].
    assert (G : forall q seen, Forall (fun kv => adds n kv [kv] /\ fkey (fst kv) = fst kv) q ->
              NoDup (seen ++ map fst q)%list ->
              fresh_run seen (map (fun kv : string * val => ([fkey (fst kv); fst kv], [fst kv])) q) = true).
    { induction q as [|kv q IH]; intros seen Q ND; [reflexivity|]. inversion Q as [|? ? [_ K] Q']; subst.
      cbn [map fresh_run forallb]. rewrite K.
      assert (N : fresh_key (fst kv) seen = true).
      { apply fresh_key_in. intros I. cbn [map] in ND. apply NoDup_remove_2 in ND. apply ND. apply in_app_iff. now left. }
      rewrite N. cbn [andb]. apply IH; [assumption|]. cbn [map] in ND. now rewrite <- app_assoc. }
    apply (G p []); assumption.
Qed.

(** A child and the members it becomes, in the first and in every further pass. *)
Definition good_step (n : nat) (s : xml * vdict) : Prop :=
  adds n (xml_name (fst s), to_val (fst s)) (snd s) /\ Forall (fun kv => adds n kv [kv] /\ fkey (fst kv) = fst kv) (snd s).
Definition steps_fresh (steps : list (xml * vdict)) : bool :=
  nodupb (map (fun s => xml_name (fst s)) steps)
  && fresh_run [] (map (fun s => (fkey (xml_name (fst s)) :: map fst (snd s), map fst (snd s))) steps)
  && nodupb (flat_map (fun s => map fst (snd s)) steps).
Definition steps_payload (steps : list (xml * vdict)) : vdict := flat_map snd steps.
Definition reads (n : nat) (x : xml) (p : vdict) : Prop := exists its, to_val x = VDict its /\ nz n its = Ok p.
Definition arrives (n : nat) (x : xml) (p : vdict) : Prop := reads n x p /\ stable n p.

Lemma push_absent d k v : vget k d = None -> push d k v = (d ++ [(k, v)])%list.
Proof. intros H. unfold push. rewrite H. now apply vset_absent. Qed.
Lemma push_distinct cs : forall d, NoDup (map fst d ++ map xml_name cs)%list ->
  fold_left (fun d c => push d (xml_name c) (to_val c)) cs d = (d ++ map (fun c => (xml_name c, to_val c)) cs)%list.
Proof.
  induction cs as [|c cs IH]; intros d N; cbn [fold_left map]; [now rewrite app_nil_r|].
  rewrite push_absent.
  - rewrite IH, <- app_assoc; [reflexivity|]. rewrite map_app, <- app_assoc. exact N.
  - apply vget_none. intros I. cbn [map] in N. apply NoDup_remove_2 in N. apply N. apply in_app_iff. now left.
Qed.
Lemma to_val_node name cs : cs <> [] -> to_val (node name cs) = VDict (fold_left (fun d c => push d (xml_name c) (to_val c)) cs []).
Proof. intros N. destruct cs; [contradiction|reflexivity]. Qed.

Lemma to_val_steps name (steps : list (xml * vdict)) : steps <> [] -> nodupb (map (fun s => xml_name (fst s)) steps) = true ->
  to_val (node name (map fst steps)) = VDict (map (fun s => (xml_name (fst s), to_val (fst s))) steps).
Proof.
  intros N D. rewrite to_val_node by (destruct steps; [contradiction|discriminate]).
  rewrite push_distinct by (cbn [map app]; rewrite map_map; now apply nodupb_spec). cbn [app]. now rewrite map_map.
Qed.

Lemma arrives_node n name steps : steps <> [] -> Forall (good_step n) steps -> steps_fresh steps = true ->
  arrives (S n) (node name (map fst steps)) (steps_payload steps).
Proof.
  intros N G F. unfold steps_fresh in F. apply andb_true_iff in F as [F F3]. apply andb_true_iff in F as [F1 F2]. split.
  - eexists. split; [now apply to_val_steps|].
    assert (E1 : map (fun s : xml * vdict => (xml_name (fst s), to_val (fst s))) steps = map fst (map (fun s : xml * vdict => ((xml_name (fst s), to_val (fst s)), snd s)) steps))
      by now rewrite map_map.
    assert (E2 : steps_payload steps = concat (map snd (map (fun s : xml * vdict => ((xml_name (fst s), to_val (fst s)), snd s)) steps))).
    { rewrite map_map. cbn [snd]. unfold steps_payload. now rewrite flat_map_concat_map. }
    rewrite E1, E2. apply run.
    + apply Forall_map. eapply Forall_impl; [|exact G]. now intros s [H _].
    + rewrite map_map. exact F2.
  - apply stable_intro.
    + unfold steps_payload. apply Forall_flat_map. eapply Forall_impl; [|exact G]. now intros s [_ H].
    + unfold steps_payload. rewrite flat_map_concat_map, concat_map, map_map, <- flat_map_concat_map. exact F3.
Qed.

(** One child, one member. *)
Definition keyed (k k' : string) : bool :=
  negb (startswith "@" k) && String.eqb (fkey k) k' && general_key k' && negb (startswith "@" k') && String.eqb (normalize_key k') k' && String.eqb (fkey k') k'.
Lemma step_intro n x k' v w : keyed (xml_name x) k' = true ->
  value_of n (normalize_key (xml_name x)) (to_val x) = Ok v -> unnest num k' v = Ok (Some w) ->
  value_of n k' w = Ok w -> unnest num k' w = Ok (Some w) ->
  good_step n (x, [(k', w)]).
Proof.
  unfold keyed. rewrite !andb_true_iff, !negb_true_iff, !String.eqb_eq. intros (((((A & K) & G) & A') & N') & K') V U V' U'.
  split; cbn [fst snd].
  - pose proof (adds_general n (xml_name x) (to_val x) v (Some w)) as H. rewrite K in H. now apply H.
  - constructor; [|constructor]. split; [|exact K'].
    pose proof (adds_general n k' w w (Some w)) as H. rewrite K', N' in H. now apply H.
Qed.
Lemma fixed_intro n k w : keyed k k = true -> value_of n k w = Ok w -> unnest num k w = Ok (Some w) -> adds n (k, w) [(k, w)] /\ fkey k = k.
Proof.
  unfold keyed. rewrite !andb_true_iff, !negb_true_iff, !String.eqb_eq. intros (((((A & K) & G) & _) & N) & _) V U.
  split; [|exact K]. pose proof (adds_general n k w w (Some w)) as H. rewrite K, N in H. now apply H.
Qed.

(** Values of the first and the further passes. *)
Definition scalar_val (v : val) : bool := match v with VDict _ | VList _ => false | _ => true end.
Definition leaf_key (k : string) : bool := negb (existsb (String.eqb k) ["report_payload"; "test_event"]).
Lemma unnest_leaf k v : leaf_key k = true -> match v with VDict _ => false | _ => true end = true -> unnest num k v = Ok (Some v).
Proof.
  unfold leaf_key. rewrite negb_true_iff. cbn [existsb]. rewrite !orb_false_iff. intros (A & B & _) S.
  destruct v; try discriminate S; unfold unnest; cbn [existsb]; rewrite A, B; destruct ((k =? "signal_payload")%string || _); reflexivity.
Qed.
Lemma unnest_payload_leaf k v : existsb (String.eqb k) ["signal_payload"; "current_value"] = true -> match v with VDict _ => false | _ => true end = true -> unnest num k v = Ok (Some v).
Proof. intros K S. unfold unnest. rewrite K. now destruct v. Qed.
Lemma value_scalar n k v : scalar_val v = true -> value_of n k v = interpret num k v.
Proof. now destruct v. Qed.
Lemma interpret_done k v : match v with VStr _ => false | _ => true end = true -> duration_key k = false -> interpret num k v = Ok v.
Proof. intros S D. unfold duration_key, interpret in *. rewrite D. now destruct v. Qed.

(** Leaves *)
Lemma step_leaf n k k' s v : one_line s -> keyed k k' = true -> leaf_key k' = true -> scalar_val v = true ->
  interpret num (normalize_key k) (VStr s) = Ok v -> interpret num k' v = Ok v -> good_step n (leaf k s, [(k', v)]).
Proof.
  intros O K L S I1 I2. apply (step_intro n (leaf k s) k' v v); cbn [xml_name leaf to_val].
  - assumption.
  - rewrite text_val_one_line by assumption. exact I1.
  - apply unnest_leaf; [assumption|]. now destruct v.
  - rewrite value_scalar by assumption. exact I2.
  - apply unnest_leaf; [assumption|]. now destruct v.
Qed.
Definition text_key (k k' : string) : bool :=
  keyed k k' && leaf_key k' && negb (duration_key (normalize_key k)) && negb (time_key (normalize_key k)) && negb (duration_key k') && negb (time_key k').
Ltac keys H := unfold text_key in H; rewrite !andb_true_iff, !negb_true_iff in H; destruct H as (((((K & L) & D1) & T1) & D2) & T2).
Lemma step_text n k k' s : text_key k k' = true -> plain s -> good_step n (leaf k s, [(k', VStr s)]).
Proof.
  intros H (O & A & B & C). keys H. apply step_leaf; try assumption; try reflexivity; now apply interpret_plain.
Qed.
Lemma step_int n k k' z : text_key k k' = true -> good_step n (leaf k (str_of_Z z), [(k', VInt z)]).
Proof.
  intros H. keys H. apply step_leaf; try assumption; try reflexivity.
  - apply str_of_Z_one_line.
  - now apply interpret_int.
  - now apply interpret_done.
Qed.
Lemma step_bool n k k' b : text_key k k' = true -> good_step n (leaf k (show_bool b), [(k', VBool b)]).
Proof.
  intros H. keys H. apply step_leaf; try assumption; try reflexivity.
  - apply show_bool_one_line.
  - now apply interpret_bool.
  - now apply interpret_done.
Qed.
Lemma step_test_event n b : good_step n (leaf "testEvent" (show_bool b), [("test_event", VBool b)]).
Proof.
  apply (step_intro n (leaf "testEvent" (show_bool b)) "test_event" (VBool b) (VBool b)); try reflexivity.
  cbn [xml_name leaf to_val]. rewrite text_val_one_line by apply show_bool_one_line. now apply interpret_bool.
Qed.
Lemma step_number n k k' x : text_key k k' = true -> plain_number num x ->
  good_step n (leaf k (show_number x), [(k', match x with NInt z => VInt z | NFloat t => VFloat t end)]).
Proof.
  intros H G. keys H. apply step_leaf; try assumption.
  - destruct G as [G _]. now apply (show_number_one_line num).
  - now destruct x.
  - now apply interpret_plain_number.
  - apply interpret_done; [now destruct x | assumption].
Qed.
Definition stamp_key (k k' : string) : bool :=
  keyed k k' && leaf_key k' && negb (duration_key (normalize_key k)) && time_key (normalize_key k) && negb (duration_key k').
Lemma read_time_val t : good_time t -> exists u, read_time t = VTime u.
Proof. intros G. destruct (good_time_read t G) as (_ & u & i & _ & R & _). now exists u. Qed.
Lemma step_time n k k' t : stamp_key k k' = true -> good_time t -> good_step n (leaf k (show_time t), [(k', read_time t)]).
Proof.
  unfold stamp_key. rewrite !andb_true_iff, !negb_true_iff. intros ((((K & L) & D1) & T1) & D2) G.
  destruct (read_time_val t G) as [u R].
  apply step_leaf; try assumption.
  - now apply good_time_read.
  - now rewrite R.
  - now apply interpret_time.
  - rewrite R. now apply interpret_done.
Qed.
Lemma step_none n k k' : keyed k k' = true -> leaf_key k' = true -> duration_key (normalize_key k) = false -> duration_key k' = false ->
  good_step n (leaf k "", [(k', VNone)]).
Proof.
  intros K L D1 D2. apply (step_intro n (leaf k "") k' VNone VNone); cbn [xml_name leaf to_val].
  - assumption.
  - change (text_val "") with VNone. rewrite value_scalar by reflexivity. now apply interpret_done.
  - now apply unnest_leaf.
  - rewrite value_scalar by reflexivity. now apply interpret_done.
  - now apply unnest_leaf.
Qed.

(** Dicts *)
Lemma value_arrives n key x p : arrives n x p -> value_of n key (to_val x) = Ok (VDict p).
Proof. intros [(its & E & N) _]. rewrite E. cbn. now rewrite N. Qed.
Lemma value_stable n key p : stable n p -> value_of n key (VDict p) = Ok (VDict p).
Proof. intros S. cbn. now rewrite S. Qed.
Definition dict_key (k : string) : bool := negb (existsb (String.eqb k) ["signal_payload"; "current_value"; "report_payload"; "test_event"]).
Definition compact (p : vdict) : bool := (2 <=? length p)%nat && ((3 <=? length p)%nat || negb (vmem "properties" p)).
Lemma unnest_compact k p : dict_key k = true -> compact p = true -> unnest num k (VDict p) = Ok (Some (VDict p)).
Proof.
  unfold dict_key, compact. rewrite negb_true_iff. cbn [existsb]. rewrite !orb_false_iff. intros (A & B & C & D & _).
  rewrite andb_true_iff, orb_true_iff, !Nat.leb_le, negb_true_iff. intros [L P].
  unfold unnest. cbn [existsb]. rewrite A, B, C, D. cbn [orb].
  assert (L1 : Nat.eqb (length p) 1 = false) by (apply Nat.eqb_neq; lia).
  assert (L0 : Nat.eqb (length p) 0 = false) by (apply Nat.eqb_neq; lia).
  rewrite L1, L0, !andb_false_r.
  destruct P as [P|P]; [rewrite (proj2 (Nat.leb_gt _ _)) by lia; rewrite andb_false_r | rewrite P]; reflexivity.
Qed.
Lemma step_dict n x k' p : keyed (xml_name x) k' = true -> dict_key k' = true -> compact p = true -> arrives n x p -> good_step n (x, [(k', VDict p)]).
Proof.
  intros K D C A. apply (step_intro n x k' (VDict p) (VDict p)).
  - assumption.
  - now apply value_arrives.
  - now apply unnest_compact.
  - apply value_stable, A.
  - now apply unnest_compact.
Qed.
(** A dict that is replaced by a scalar inside it. *)
Lemma step_unnest n x k' p w : keyed (xml_name x) k' = true -> arrives n x p -> unnest num k' (VDict p) = Ok (Some w) ->
  scalar_val w = true -> match w with VStr _ => false | _ => true end = true -> duration_key k' = false ->
  leaf_key k' = true -> good_step n (x, [(k', w)]).
Proof.
  intros K A U S T D L. apply (step_intro n x k' (VDict p) w); try assumption.
  - now apply value_arrives.
  - rewrite value_scalar by assumption. now apply interpret_done.
  - apply unnest_leaf; [assumption|]. now destruct w.
Qed.

(** ** Lists of elements of one name *)
Definition one_or_list (vs : list val) : val := match vs with [v] => v | _ => VList vs end.
Lemma to_val_not_list x : match to_val x with VList _ => False | _ => True end.
Proof.
  destruct x as [n a s c]. cbn. destruct a, c; try exact I. unfold text_val. destruct (flatten_xml s); exact I.
Qed.
Lemma push_many k xs : forall d vs, Forall (fun x => xml_name x = k) xs -> vget k d = None -> vs <> [] ->
  match vs with [VList _] => False | _ => True end ->
  fold_left (fun d c => push d (xml_name c) (to_val c)) xs (d ++ [(k, one_or_list vs)])%list
  = (d ++ [(k, one_or_list (vs ++ map to_val xs)%list)])%list.
Proof.
  induction xs as [|x xs IH]; intros d vs F G N S; cbn [fold_left map]; [now rewrite app_nil_r|].
  inversion F as [|? ? E F']; subst.
  assert (P : push (d ++ [(xml_name x, one_or_list vs)])%list (xml_name x) (to_val x) = (d ++ [(xml_name x, one_or_list (vs ++ [to_val x])%list)])%list).
  { unfold push. rewrite vget_app, G. unfold vget. cbn [get]. rewrite String.eqb_refl.
    destruct vs as [|v [|v2 vs]]; [contradiction| |]; cbn [one_or_list app].
    - destruct v; try contradiction; now apply vset_last.
    - now apply vset_last. }
  rewrite P, IH; [|assumption|assumption|destruct vs; discriminate|].
  - now rewrite <- app_assoc.
  - destruct vs as [|v [|]]; [contradiction| |]; destruct v; exact I.
Qed.
Lemma push_all k xs d : Forall (fun x => xml_name x = k) xs -> xs <> [] -> vget k d = None ->
  fold_left (fun d c => push d (xml_name c) (to_val c)) xs d = (d ++ [(k, one_or_list (map to_val xs))])%list.
Proof.
  intros F N G. destruct xs as [|x xs]; [contradiction|]. inversion F as [|? ? E F']; subst. cbn [fold_left map].
  rewrite push_absent by assumption. change (to_val x) with (one_or_list [to_val x]) at 1. rewrite push_many; try assumption; try discriminate; [reflexivity|].
  pose proof (to_val_not_list x). now destruct (to_val x).
Qed.
Lemma to_val_many name k xs : Forall (fun x => xml_name x = k) xs -> xs <> [] ->
  to_val (node name xs) = VDict [(k, one_or_list (map to_val xs))].
Proof. intros F N. rewrite to_val_node by assumption. now rewrite (push_all k). Qed.

(** The value of several elements, each a dict. *)
Lemma value_many n key xs ps : Forall2 (arrives n) xs ps -> xs <> [] ->
  value_of n key (one_or_list (map to_val xs)) = Ok (one_or_list (map VDict ps)).
Proof.
  intros F N. destruct F as [|x p xs ps A F]; [contradiction|]. destruct F as [|x2 p2 xs ps A2 F].
  - cbn [map one_or_list]. now apply value_arrives.
  - cbn [map one_or_list value_of].
    assert (E : forall xs ps, Forall2 (arrives n) xs ps ->
      mapM (fun item => match item with VDict x => bind (nz n x) (fun y => bind (nz n y) (fun z => Ok (VDict z))) | x => Ok x end) (map to_val xs) = Ok (map VDict ps)).
    { clear. intros xs ps F. induction F as [|x p xs ps [(its & E & R) S] F IH]; [reflexivity|].
      cbn [map mapM]. rewrite E. cbn [bind]. rewrite R. cbn [bind]. unfold stable in S. rewrite S. cbn [bind]. rewrite IH. reflexivity. }
    change (to_val x :: to_val x2 :: map to_val xs) with (map to_val (x :: x2 :: xs)).
    rewrite (E (x :: x2 :: xs) (p :: p2 :: ps)) by (repeat (constructor; [assumption|]); assumption). reflexivity.
Qed.
Lemma value_list n key ps : Forall (stable n) ps -> value_of n key (VList (map VDict ps)) = Ok (VList (map VDict ps)).
Proof.
  intros F. cbn [value_of].
  assert (E : mapM (fun item => match item with VDict x => bind (nz n x) (fun y => bind (nz n y) (fun z => Ok (VDict z))) | x => Ok x end) (map VDict ps) = Ok (map VDict ps)).
  { induction F as [|p ps S F IH]; [reflexivity|]. cbn [map mapM bind]. unfold stable in S. rewrite S. cbn [bind]. rewrite S. cbn [bind]. rewrite IH. reflexivity. }
  now rewrite E.
Qed.

(** More depth does not change a result. *)
Lemma mapM_mono {A B} (f g : A -> result B) l bs : (forall a b, f a = Ok b -> g a = Ok b) -> mapM f l = Ok bs -> mapM g l = Ok bs.
Proof. intros M. rewrite !mapM_ok. apply Forall2_impl. intros a b. apply M. Qed.
Lemma entry_mono (f g : vdict -> result vdict) d kv d' : (forall x y, f x = Ok y -> g x = Ok y) -> entry num f d kv = Ok d' -> entry num g d kv = Ok d'.
Proof.
  intros M. destruct kv as [k x]. unfold entry. destruct (startswith "@" k); [trivial|]. cbv zeta.
  destruct x as [| | | | | | | l |y]; try (intros H; exact H).
  - destruct (mapM _ l) as [l'|] eqn:E; [|discriminate]. apply (mapM_mono _ (fun item => match item with VDict x => bind (g x) (fun y => bind (g y) (fun z => Ok (VDict z))) | x => Ok x end)) in E.
    + rewrite E. trivial.
    + intros a b. destruct a; trivial. destruct (f d0) as [y|] eqn:F; [|discriminate]. apply M in F. rewrite F. cbn [bind].
      destruct (f y) as [z|] eqn:F2; [|discriminate]. apply M in F2. now rewrite F2.
  - destruct (f y) as [z|] eqn:F; [|discriminate]. apply M in F. rewrite F. trivial.
Qed.
Lemma normalize_mono n : forall d p, nz n d = Ok p -> nz (S n) d = Ok p.
Proof.
  induction n as [|n IH]; intros d p H; [discriminate|].
  change (foldM (entry num (nz (S n))) d [] = Ok p). change (foldM (entry num (nz n)) d [] = Ok p) in H.
  revert H. generalize (@nil (string * val)). induction d as [|kv d IHd]; intros acc H; cbn [foldM] in *; [assumption|].
  destruct (entry num (nz n) acc kv) as [a|] eqn:E; [|discriminate].
  apply (entry_mono _ (nz (S n))) in E; [|exact IH]. rewrite E. cbn [bind] in *. now apply IHd.
Qed.
Lemma normalize_deeper n m d p : (n <= m)%nat -> nz n d = Ok p -> nz m d = Ok p.
Proof. intros L H. induction L; [assumption|]. now apply normalize_mono. Qed.
Lemma stable_deeper n m p : (n <= m)%nat -> stable n p -> stable m p.
Proof. apply normalize_deeper. Qed.
Lemma arrives_deeper n m x p : (n <= m)%nat -> arrives n x p -> arrives m x p.
Proof.
  intros L [(its & E & R) S]. split; [exists its; split; [assumption|]|]; now apply (normalize_deeper n m).
Qed.

(** Several elements of one name inside a wrapper. *)
Lemma reads_many' n name k k1 xs ps : Forall (fun x => xml_name x = k) xs -> xs <> [] -> Forall2 (arrives n) xs ps ->
  keyed k k1 = true -> leaf_key k1 = true -> Forall (fun p => unnest num k1 (VDict p) = Ok (Some (VDict p))) ps ->
  reads (S n) (node name xs) [(k1, one_or_list (map VDict ps))].
Proof.
  intros F N A K1 L1 C. eexists. split; [now apply (to_val_many name k)|].
  pose proof (run n [((k, one_or_list (map to_val xs)), [(k1, one_or_list (map VDict ps))])]) as R. cbn [map fst snd concat app] in R. apply R; [|reflexivity].
  constructor; [|constructor]. cbn [fst snd].
  pose proof K1 as K. unfold keyed in K. rewrite !andb_true_iff, !negb_true_iff, !String.eqb_eq in K. destruct K as (((((K2 & K3) & K4) & _) & _) & _).
  pose proof (adds_general n k (one_or_list (map to_val xs)) (one_or_list (map VDict ps)) (Some (one_or_list (map VDict ps)))) as H.
  rewrite K3 in H. apply H; [assumption|assumption|now apply value_many|].
  destruct ps as [|p [|p2 ps]]; cbn [map one_or_list].
  - now apply unnest_leaf.
  - now inversion C; subst.
  - now apply unnest_leaf.
Qed.
(** A wrapper such as intervals, around several elements such as interval. *)
Lemma step_wrapper' n name k k1 k' xs ps : Forall (fun x => xml_name x = k) xs -> xs <> [] -> Forall2 (arrives n) xs ps ->
  keyed k k1 = true -> leaf_key k1 = true -> Forall (fun p => unnest num k1 (VDict p) = Ok (Some (VDict p))) ps ->
  keyed name k' = true -> butlast k' = k1 -> String.eqb "duration" k1 = false -> String.eqb k' k1 = false -> leaf_key k' = true ->
  good_step (S n) (node name xs, [(k', VList (map VDict ps))]).
Proof.
  intros F N A K1 L1 C K' B ND NK L.
  assert (SP : Forall (stable (S n)) ps).
  { clear - A. induction A as [|? ? ? ? [_ S]]; constructor; [apply (stable_deeper n); [lia|assumption] | assumption]. }
  assert (NP : ps <> []) by (destruct A; [contradiction | discriminate]).
  destruct (reads_many' n name k k1 xs ps F N A K1 L1 C) as (its & E & R).
  apply (step_intro (S n) (node name xs) k' (VDict [(k1, one_or_list (map VDict ps))])).
  - assumption.
  - rewrite E. cbn [value_of]. rewrite R. reflexivity.
  - unfold unnest. unfold vmem, mem. cbn [get length]. rewrite ND, NK, B. cbn [get]. rewrite String.eqb_refl. cbn [andb Nat.eqb].
    unfold vget. cbn [get]. rewrite String.eqb_refl. destruct ps as [|p [|p2 ps]]; [contradiction| |]; reflexivity.
  - now apply value_list.
  - now apply unnest_leaf.
Qed.
Lemma step_wrapper n name k k1 k' xs ps : Forall (fun x => xml_name x = k) xs -> xs <> [] -> Forall2 (arrives n) xs ps ->
  keyed k k1 = true -> dict_key k1 = true -> leaf_key k1 = true -> Forall (fun p => compact p = true) ps ->
  keyed name k' = true -> butlast k' = k1 -> String.eqb "duration" k1 = false -> String.eqb k' k1 = false -> leaf_key k' = true ->
  good_step (S n) (node name xs, [(k', VList (map VDict ps))]).
Proof.
  intros F N A K1 D1 L1 C. apply (step_wrapper' n name k k1 k' xs ps F N A K1 L1). eapply Forall_impl; [|exact C]. intros p. now apply unnest_compact.
Qed.
End Entries.
