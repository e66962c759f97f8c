(** Which values fit which simple types (Model/Schema.v, Model/SchemaTypes.v). *)
From Coq Require Import ZArith String Ascii List Bool Lia.
From Verif.Base Require Import Result PyStr.
From Verif.Model Require Import Duration DateTime Xml Schema SchemaTypes.
From Verif.Spec Require Import Calendar Instants MessageSpec AcceptedSpec.
From Verif.Proofs Require Import DateTimeProofs CronProofs RegexProofs.
Import ListNotations.
Local Open Scope string_scope.
Local Open Scope Z_scope.

(** ** Digits *)
Lemma each_digits s : each (fun c => is_digit c = true) s <-> all_digits s = true.
Proof. induction s as [|c s IH]; cbn [each all_digits]; [tauto|]. rewrite andb_true_iff, IH. tauto. Qed.
Lemma digits_spec s : digits s <-> s <> "" /\ all_digits s = true.
Proof. unfold digits. now rewrite each_digits. Qed.
Lemma dec_digits_of n : 0 <= n -> digits (dec n).
Proof. intros H. apply digits_spec. destruct (dec_spec n H) as (D & _ & N). auto. Qed.
Lemma each_impl (P Q : ascii -> Prop) s : (forall c, P c -> Q c) -> each P s -> each Q s.
Proof. intros H. induction s as [|c s IH]; [auto|]. intros [A B]. split; auto. Qed.
Lemma digit_not_spacing c : is_digit c = true -> ~ spacing c.
Proof. intros D I. apply is_digit_spec in D. destruct I as [<-|[<-|[<-|[<-|[]]]]]; cbv in D; destruct D as [D1 D2]; (now elim D1) || (now elim D2). Qed.
Lemma digits_word s : digits s -> word s.
Proof. intros [N D]. split; [exact N|]. eapply each_impl; [|exact D]. exact digit_not_spacing. Qed.
Lemma str_of_Z_neg z : z < 0 -> str_of_Z z = String "-" (dec (- z)).
Proof. intros H. unfold str_of_Z. destruct (Z.ltb_spec z 0); [reflexivity|lia]. Qed.
Lemma str_of_Z_word z : word (str_of_Z z).
Proof.
  destruct (Z.le_gt_cases 0 z) as [H|H]; [rewrite str_of_Z_nonneg by exact H; now apply digits_word, dec_digits_of|]. rewrite str_of_Z_neg by exact H.
  destruct (digits_word (dec (- z))) as [N W]; [apply dec_digits_of; lia|]. split; [discriminate|]. split; [|exact W]. intros [E|[E|[E|[E|[]]]]]; discriminate E.
Qed.
Lemma str_of_Z_collapse z : collapse (str_of_Z z) = str_of_Z z. Proof. apply collapse_word, str_of_Z_word. Qed.

Lemma in_times_digit n s : language (times n Schema.digit) s <-> String.length s = n /\ all_digits s = true.
Proof.
  unfold times. revert s. induction n as [|n IH]; intros s; cbn [repeat seqs].
  - rewrite in_empty. split; [intros ->; auto|]. intros [L _]. destruct s; [reflexivity|discriminate].
  - destruct n as [|n]; cbn [repeat seqs] in *.
    + unfold Schema.digit. rewrite in_char. split; [intros (c & -> & D); cbn [String.length all_digits]; now rewrite D|]. intros [L D]. destruct s as [|c [|d s]]; try discriminate. exists c. cbn [all_digits] in D. rewrite andb_true_r in D. auto.
    + rewrite in_seq. split.
      * intros (t & u & -> & A & B). apply in_char in A as (c & -> & D). apply IH in B as [L B]. cbn [append String.length all_digits]. rewrite D, B, L. auto.
      * intros [L D]. destruct s as [|c s]; [discriminate|]. cbn [all_digits String.length] in *. apply andb_prop in D as [D1 D2]. exists (String c ""), s. split; [reflexivity|]. split; [now constructor|]. apply IH. split; [lia|exact D2].
Qed.
Lemma code_spec uri z : fits uri ei_ResponseCodeType (str_of_Z z) = true <-> a_code z.
Proof.
  cbn [fits ei_ResponseCodeType value_of preserves]. cbn [andb]. rewrite matches_spec. unfold code_pattern. rewrite in_times_digit. unfold a_code. split.
  - intros [L D]. destruct (Z.le_gt_cases 0 z) as [H|H].
    + rewrite str_of_Z_nonneg in * by exact H. pose proof (int_of_range (dec z) D) as R. rewrite int_of_dec, L in R by exact H. change (10 ^ Z.of_nat 3) with 1000 in R. split; [|lia].
      destruct (Z.le_gt_cases 100 z) as [|G]; [assumption|]. exfalso. assert ((String.length (dec z) <= 2)%nat) by (apply dec_length_le; [lia|change (10 ^ Z.of_nat 2) with 100; lia|discriminate]). lia.
    + rewrite str_of_Z_neg in D by exact H. discriminate D.
  - intros H. rewrite str_of_Z_nonneg by lia. split; [|apply dec_digits; lia].
    assert (A : (String.length (dec z) <= 3)%nat) by (apply dec_length_le; [lia|change (10 ^ Z.of_nat 3) with 1000; lia|discriminate]).
    assert (B : (2 < String.length (dec z))%nat).
    { pose proof (int_of_range (dec z) (dec_digits z ltac:(lia))) as R. rewrite int_of_dec in R by lia. destruct (Nat.le_gt_cases (String.length (dec z)) 2) as [G|]; [|assumption]. exfalso.
      assert (10 ^ Z.of_nat (String.length (dec z)) <= 10 ^ 2) by (apply Z.pow_le_mono_r; lia). change (10 ^ 2) with 100 in *. lia. }
    lia.
Qed.
Lemma unsigned_spec uri z : fits uri UnsignedInt (str_of_Z z) = true <-> unsigned z.
Proof.
  cbn [fits]. rewrite str_of_Z_collapse. unfold unsigned. destruct (Z.le_gt_cases 0 z) as [H|H].
  - rewrite str_of_Z_nonneg by exact H. destruct (dec_spec z H) as (D & I & N). rewrite D, I. apply String.eqb_neq in N. rewrite N. cbn [negb andb]. rewrite Z.leb_le. lia.
  - rewrite str_of_Z_neg by exact H. cbn. split; [discriminate|lia].
Qed.

(** ** Enumerations *)
Lemma existsb_In v l : existsb (String.eqb v) l = true <-> In v l.
Proof. rewrite existsb_exists. split; [intros (x & I & E); apply String.eqb_eq in E; now subst|intros I; exists v; split; [exact I|apply String.eqb_refl]]. Qed.
Lemma token_spec uri vs t : fits uri (OneOf Token vs) t = true <-> reads_one t vs.
Proof.
  cbn [fits value_of preserves andb]. unfold value_of. cbn [preserves]. rewrite existsb_In. unfold reads_one. split; [intros I; exists (collapse t); split; [now apply reads_collapse|exact I]|].
  intros (v & R & I). apply reads_collapse in R as ->. exact I.
Qed.
Lemma text_one_spec uri vs t : fits uri (OneOf Text vs) t = true <-> In t vs.
Proof. cbn [fits andb]. unfold value_of. cbn [preserves]. apply existsb_In. Qed.
(** A collapsed text has no line ends. *)
Lemma words_are t : Forall word (words t).
Proof.
  pose proof (words_worded t) as W. induction W as [|b w B W|b w c r ws B W S _ IH]; constructor; auto.
Qed.
Lemma join_no_end ws : Forall word ws -> each (fun c => line_end c = false) (join " " ws).
Proof.
  assert (L : forall c, ~ spacing c -> line_end c = false).
  { intros c N. unfold line_end. destruct (existsb (Ascii.eqb c) _) eqn:E; [|reflexivity]. exfalso. apply N. apply existsb_exists in E as (d & I & E). apply Ascii.eqb_eq in E as ->. destruct I as [<-|[<-|[]]]; cbv; auto. }
  induction 1 as [|w ws [_ W] _ IH]; [exact I|]. destruct ws as [|v ws]; cbn [join]; [eapply each_impl; [|exact W]; exact L|].
  apply each_app. split; [eapply each_impl; [|exact W]; exact L|]. apply each_app. split; [now split|]. exact IH.
Qed.
Lemma extension_spec uri t : fits uri ei_EiExtensionTokenType t = true <-> exists v, reads t v /\ own_value v.
Proof.
  cbn [fits ei_EiExtensionTokenType andb]. unfold value_of. cbn [preserves]. rewrite matches_spec. unfold extension_pattern. cbn [seqs].
  assert (E : language (Seq (lit "x") (Seq (lit "-") (Seq (CharIn (fun c => negb (space c))) (Star (CharIn (fun c => negb (line_end c))))))) (collapse t) <-> own_value (collapse t)).
  { unfold own_value. split.
    - intros L. apply in_seq in L as (a & r & -> & A & L). apply in_lit in A as ->. apply in_seq in L as (b & s & -> & B & L). apply in_lit in B as ->. apply in_seq in L as (c & u & -> & C & L). apply in_char in C as (d & -> & N).
      exists d, u. split; [reflexivity|]. intros S. apply space_spec in S. rewrite S in N. discriminate.
    - intros (c & r & E & N). rewrite E. change ("x-" ++ String c r) with ("x" ++ "-" ++ String c "" ++ r). apply in_seq. exists "x", ("-" ++ String c "" ++ r). split; [reflexivity|]. split; [now apply in_lit|].
      apply in_seq. exists "-", (String c "" ++ r). split; [reflexivity|]. split; [now apply in_lit|]. constructor.
      + constructor. destruct (space c) eqn:S; [|reflexivity]. apply space_spec in S. contradiction.
      + apply in_star_char. pose proof (join_no_end (words t) (words_are t)) as J. fold (collapse t) in J. rewrite E in J. cbn [append each] in J. destruct J as (_ & _ & _ & J). eapply each_impl; [|exact J]. intros d ->. reflexivity. }
  rewrite E. split; [intros O; exists (collapse t); split; [now apply reads_collapse|exact O]|]. intros (v & R & O). apply reads_collapse in R as ->. exact O.
Qed.
Lemma own_spec uri vs t : fits uri (Union [OneOf Token vs; ei_EiExtensionTokenType]) t = true <-> reads_own t vs.
Proof.
  change (fits uri (Union [OneOf Token vs; ei_EiExtensionTokenType]) t) with (fits uri (OneOf Token vs) t || (fits uri ei_EiExtensionTokenType t || false))%bool. rewrite orb_false_r, orb_true_iff, token_spec, extension_spec. unfold reads_one, reads_own. split; [intros [(v & R & O)|(v & R & O)]; exists v; auto|]. intros (v & R & [O|O]); [left|right]; exists v; auto.
Qed.
Lemma uri_spec uri t : fits uri AnyURI t = true <-> a_uri (fun v => uri v = true) t.
Proof. cbn [fits]. unfold a_uri. split; [intros U; exists (collapse t); split; [now apply reads_collapse|exact U]|]. intros (v & R & U). apply reads_collapse in R as ->. exact U. Qed.
Lemma bool_fits uri b : fits uri Boolean (show_bool b) = true. Proof. destruct b; reflexivity. Qed.

(** ** Numbers *)
Lemma in_sign s : language sign s <-> sign_of s.
Proof.
  unfold sign, sign_of. rewrite in_perhaps, in_or, !in_lit. cbn [In]. split; [intros [->|[->| ->]]; auto|intros [<-|[<-|[<-|[]]]]; auto].
Qed.
Lemma in_mantissa s : language mantissa s <-> mantissa_of s.
Proof.
  unfold mantissa. rewrite in_or, !in_seq. split.
  - intros [(a & b & -> & A & B)|(a & b & -> & A & B)].
    + apply in_digits in A. apply in_perhaps in B as [->|B]; [rewrite str_app_nil; now constructor|]. apply in_seq in B as (c & d & -> & C & D). apply in_lit in C as ->. apply mt_point; [exact A|]. unfold Schema.digit in D. apply in_star_char in D. destruct d; [now left|right; split; [discriminate|exact D]].
    + apply in_lit in A as ->. apply in_digits in B. now apply mt_fraction.
  - intros [a A|a b A B|b B].
    + left. exists a, "". rewrite str_app_nil. split; [reflexivity|]. split; [now apply in_digits|]. apply in_perhaps. now left.
    + left. exists a, ("." ++ b). split; [reflexivity|]. split; [now apply in_digits|]. apply in_perhaps. right. constructor; [now apply in_lit|]. unfold Schema.digit. apply in_star_char. destruct B as [->|[_ B]]; [exact I|exact B].
    + right. exists ".", b. split; [reflexivity|]. split; [now apply in_lit|now apply in_digits].
Qed.
Lemma in_float s : language float_pattern s <-> float_literal s.
Proof.
  unfold float_pattern, float_literal. cbn [seqs]. rewrite !in_or, !in_letters. split.
  - intros [L|[L| ->]]; [left| |right; cbn; auto].
    + apply in_seq in L as (g & r & -> & G & L). apply in_seq in L as (m & e & -> & M & E). exists g, m, e. split; [reflexivity|]. split; [now apply in_sign|]. split; [now apply in_mantissa|].
      unfold exponent_of. apply in_perhaps in E as [->|E]; [now left|right]. apply in_seq in E as (c & r & -> & C & E). apply in_seq in E as (h & d & -> & H & D). exists c, h, d. split; [reflexivity|].
      split; [|split; [now apply in_sign|now apply in_digits]]. apply in_or in C as [C|C]; apply in_lit in C as ->; cbn; auto.
    + right. apply in_seq in L as (a & b & -> & A & B). apply in_letters in B as ->. apply in_perhaps in A as [->|A]; [cbn; auto|]. apply in_lit in A as ->. cbn. auto.
  - intros [(g & m & e & -> & G & M & E)|[<-|[<-|[<-|[]]]]].
    + left. constructor; [now apply in_sign|]. constructor; [now apply in_mantissa|]. apply in_perhaps. destruct E as [->|(c & h & d & -> & C & H & D)]; [now left|right]. constructor; [|constructor; [now apply in_sign|now apply in_digits]].
      apply in_or. destruct C as [<-|[<-|[]]]; [left|right]; now apply in_lit.
    + right. left. apply in_seq. exists "", "INF". split; [reflexivity|]. split; [apply in_perhaps; now left|now apply in_letters].
    + right. left. apply in_seq. exists "-", "INF". split; [reflexivity|]. split; [apply in_perhaps; right; now apply in_lit|now apply in_letters].
    + right. right. reflexivity.
Qed.
Lemma integer_mantissa z : exists g m, str_of_Z z = g ++ m /\ sign_of g /\ mantissa_of m.
Proof.
  destruct (Z.le_gt_cases 0 z) as [H|H].
  - exists "", (dec z). rewrite str_of_Z_nonneg by exact H. split; [reflexivity|]. split; [cbv; auto|]. constructor. now apply dec_digits_of.
  - exists "-", (dec (- z)). rewrite str_of_Z_neg by exact H. split; [reflexivity|]. split; [cbv; auto|]. constructor. apply dec_digits_of. lia.
Qed.
Lemma integer_float uri z : fits uri Float (str_of_Z z) = true.
Proof.
  cbn [fits]. rewrite str_of_Z_collapse. apply matches_spec, in_float. destruct (integer_mantissa z) as (g & m & E & G & M). left. exists g, m, "". rewrite str_app_nil. split; [exact E|]. split; [exact G|]. split; [exact M|now left].
Qed.
Lemma integer_decimal uri z : fits uri Decimal (str_of_Z z) = true.
Proof.
  cbn [fits]. rewrite str_of_Z_collapse. apply matches_spec. unfold decimal_pattern. destruct (integer_mantissa z) as (g & m & -> & G & M). constructor; [now apply in_sign|now apply in_mantissa].
Qed.
Lemma float_spec uri n : fits uri Float (show_number n) = true <-> a_number n.
Proof.
  destruct n as [z|t]; cbn [show_number a_number]; [split; [auto|intros _; apply integer_float]|]. cbn [fits]. rewrite matches_spec, in_float.
  split; [intros F; exists (collapse t); split; [now apply reads_collapse|exact F]|]. intros (v & R & F). apply reads_collapse in R as ->. exact F.
Qed.
Lemma percentage_spec uri n : fits uri ei_ConfidenceType (show_number n) = true <-> a_percentage n.
Proof.
  cbn [fits ei_ConfidenceType]. rewrite !andb_true_iff, !Z.leb_le, negb_true_iff, String.eqb_neq. destruct n as [z|t]; cbn [show_number a_percentage].
  - rewrite str_of_Z_collapse. destruct (Z.le_gt_cases 0 z) as [H|H].
    + rewrite str_of_Z_nonneg by exact H. destruct (dec_spec z H) as (D & I & N). rewrite I. split; [lia|]. intros B. repeat split; auto; lia.
    + rewrite str_of_Z_neg by exact H. cbn [all_digits]. change (is_digit "-") with false. cbn [andb]. split; [intros [[[[_ C] _] _] _]; discriminate C|lia].
  - split.
    + intros ((((N & D) & _) & _) & B). exists (collapse t). split; [now apply reads_collapse|]. split; [now apply digits_spec|exact B].
    + intros (v & R & D & B). apply reads_collapse in R as ->. apply digits_spec in D as [N D]. pose proof (int_of_range _ D). repeat split; auto; lia.
Qed.

(** ** Times *)
Lemma take_digits_app k a r : String.length a = k -> all_digits a = true -> take_digits k (a ++ r) = Some (a, r).
Proof.
  revert a. induction k as [|k IH]; intros a L D; destruct a as [|c a]; try discriminate; [reflexivity|]. cbn [all_digits] in D. apply andb_prop in D as [Dc D]. cbn [append take_digits]. rewrite Dc. rewrite IH; [reflexivity|now injection L|exact D].
Qed.
Lemma expect_app c r : expect c (String c r) = Some r.
Proof. unfold expect. now rewrite Ascii.eqb_refl. Qed.
Lemma pad_good n : 0 <= n < 100 -> String.length (pad 2 n) = 2%nat /\ all_digits (pad 2 n) = true /\ int_of (pad 2 n) = n.
Proof. intros H. split; [now apply pad2_length|]. apply pad_spec. lia. Qed.
Lemma digits_pad2 n : 0 <= n < 100 -> language (times 2 Schema.digit) (pad 2 n).
Proof. intros H. apply in_times_digit. destruct (pad_good n H) as (L & D & _). auto. Qed.
Lemma date_time_stamp y mo d h mi se us : 1000 <= y <= 9999 -> 1 <= mo <= 12 -> 1 <= d <= days_in_month y mo -> d <= 31 -> 0 <= h <= 23 -> 0 <= mi <= 59 -> 0 <= se <= 59 -> 0 <= us < 1000000 ->
  let s := stamp (dec y) (pad 2 mo) (pad 2 d) (pad 2 h) (pad 2 mi) (pad 2 se) "." (pad 6 us) "" in
  word s /\ date_time s = true /\ language time_pattern s.
Proof.
  intros Y MO D D31 H MI SE US s.
  assert (YL : String.length (dec y) = 4%nat).
  { assert (A : (String.length (dec y) <= 4)%nat) by (apply dec_length_le; [lia|change (10 ^ Z.of_nat 4) with 10000; lia|discriminate]).
    assert (B : (3 < String.length (dec y))%nat); [|lia].
    pose proof (int_of_range (dec y) (dec_digits y ltac:(lia))) as R. rewrite int_of_dec in R by lia. destruct (Nat.le_gt_cases (String.length (dec y)) 3) as [G|]; [|assumption]. exfalso.
    assert (10 ^ Z.of_nat (String.length (dec y)) <= 10 ^ 3) by (apply Z.pow_le_mono_r; lia). change (10 ^ 3) with 1000 in *. lia. }
  destruct (dec_spec y ltac:(lia)) as (YD & YI & YN).
  destruct (pad_good mo ltac:(lia)) as (MOL & MOD & MOI). destruct (pad_good d ltac:(lia)) as (DL & DD & DI). destruct (pad_good h ltac:(lia)) as (HL & HD & HI).
  destruct (pad_good mi ltac:(lia)) as (MIL & MID & MII). destruct (pad_good se ltac:(lia)) as (SEL & SED & SEI).
  assert (UL : String.length (pad 6 us) = 6%nat) by (apply pad6_length; lia). destruct (pad_spec 6 us) as [UD _]; [lia|].
  assert (US' : digits (pad 6 us)) by (apply digits_spec; split; [intros E; rewrite E in UL; discriminate UL|exact UD]).
  split; [|split].
  - split; [unfold s, stamp; destruct (dec y); [now elim YN|discriminate]|].
    assert (W : forall a, all_digits a = true -> each (fun c => ~ spacing c) a) by (intros a A; apply each_digits in A; eapply each_impl; [|exact A]; exact digit_not_spacing).
    assert (N : forall c, In c ["-"; "T"; ":"; "."; "Z"]%char -> ~ spacing c) by (intros c I S; destruct I as [<-|[<-|[<-|[<-|[<-|[]]]]]]; destruct S as [S|[S|[S|[S|[]]]]]; discriminate S).
    unfold s, stamp. repeat (apply each_app; split; [first [now apply W|split; [apply N; cbn; tauto|exact I]]|]). exact I.
  - unfold date_time, s, stamp.
    assert (A : after_sign (dec y ++ "-" ++ pad 2 mo ++ "-" ++ pad 2 d ++ "T" ++ pad 2 h ++ ":" ++ pad 2 mi ++ ":" ++ pad 2 se ++ "." ++ pad 6 us ++ "Z" ++ "") = (dec y ++ "-" ++ pad 2 mo ++ "-" ++ pad 2 d ++ "T" ++ pad 2 h ++ ":" ++ pad 2 mi ++ ":" ++ pad 2 se ++ "." ++ pad 6 us ++ "Z" ++ "")).
    { unfold after_sign. destruct (dec y) as [|c r]; [now elim YN|]. cbn [all_digits] in YD. apply andb_prop in YD as [C _]. cbn [append strip_prefix]. destruct (Ascii.eqb_spec "-" c) as [<-|]; [discriminate C|reflexivity]. }
    rewrite A. rewrite take_digits_app by assumption. cbn [obind]. cbn [append]. rewrite expect_app. cbn [obind].
    rewrite take_digits_app by assumption. cbn [obind]. rewrite expect_app. cbn [obind].
    rewrite take_digits_app by assumption. cbn [obind]. rewrite expect_app. cbn [obind].
    rewrite take_digits_app by assumption. cbn [obind]. rewrite expect_app. cbn [obind].
    rewrite take_digits_app by assumption. cbn [obind]. rewrite expect_app. cbn [obind].
    rewrite take_digits_app by assumption. cbn [obind]. rewrite YI, MOI, DI, HI, MII, SEI.
    rewrite !andb_true_iff, orb_true_iff, !andb_true_iff, !Z.leb_le, negb_true_iff, Z.eqb_neq. repeat split; try lia.
    apply matches_spec. change (String "." (pad 6 us ++ "Z")) with (("." ++ pad 6 us) ++ "Z"). constructor; [apply in_perhaps; right; constructor; [now apply in_lit|now apply in_digits]|]. apply in_perhaps. right. now apply in_lit.
  - unfold s, stamp, time_pattern. cbn [seqs].
    change (dec y ++ "-" ++ pad 2 mo ++ "-" ++ pad 2 d ++ "T" ++ pad 2 h ++ ":" ++ pad 2 mi ++ ":" ++ pad 2 se ++ "." ++ pad 6 us ++ "Z" ++ "")
      with ("" ++ dec y ++ "-" ++ pad 2 mo ++ "-" ++ pad 2 d ++ "T" ++ pad 2 h ++ ":" ++ pad 2 mi ++ ":" ++ pad 2 se ++ "." ++ pad 6 us ++ "Z" ++ "").
    constructor; [apply in_sign; cbv; auto|]. constructor; [now apply in_times_digit|]. constructor; [now apply in_lit|]. constructor; [apply digits_pad2; lia|]. constructor; [now apply in_lit|]. constructor; [apply digits_pad2; lia|].
    constructor; [now apply in_lit|]. constructor; [apply digits_pad2; lia|]. constructor; [now apply in_lit|]. constructor; [apply digits_pad2; lia|]. constructor; [now apply in_lit|]. constructor; [apply digits_pad2; lia|].
    change ("." ++ pad 6 us ++ "Z" ++ "") with (("." ++ pad 6 us) ++ "Z"). constructor; [|apply in_perhaps; right; now apply in_lit].
    apply in_perhaps. right. constructor; [now apply in_lit|]. unfold Schema.digit. apply in_star_char. now apply each_digits.
Qed.
Lemma denotes_bound y m d h mi s us off i n : denotes y m d h mi s us off i -> ord2ymd n = (y, m, d) -> i = ((n * 86400 + h * 3600 + mi * 60 + s) * 1000000 + us) - off.
Proof. intros (n' & D & _ & ->) E. apply day_number_ymd2ord in D. apply ord2ymd_spec in E as (E & _). lia. Qed.
Lemma time_fits uri t : good_time t -> fits uri xcal_DateTimeType (show_time t) = true.
Proof.
  intros (i & D & lo & hi & Dlo & Dhi & B). apply denotes_instant in D.
  apply (denotes_bound _ _ _ _ _ _ _ _ _ 364878) in Dlo; [|reflexivity]. apply (denotes_bound _ _ _ _ _ _ _ _ _ 3652059) in Dhi; [|reflexivity].
  unfold show_time, datetimeformat, to_utc. rewrite D. destruct (of_instant_denotes i) as (u & E & O & (n & DN & T & Ei) & OY); [lia|]. rewrite E.
  cbn [bind]. destruct (ord2ymd_spec _ _ _ _ OY) as (OO & Hm & Hd).
  assert (Dy : 364878 <= i / 86400000000 <= 3652059) by (pose proof (Z.div_mod i 86400000000 ltac:(lia)); pose proof (Z.mod_pos_bound i 86400000000 ltac:(lia)); nia).
  assert (HY : 1000 <= dt_year u <= 9999).
  { pose proof (doy_range _ _ _ Hm Hd) as R. unfold ymd2ord in OO.
    assert (DB : days_before_year 1000 = 364877 /\ days_before_year 10000 = 3652059) by (split; reflexivity).
    split.
    - destruct (Z.le_gt_cases 1000 (dt_year u)) as [|L]; [assumption|exfalso].
      pose proof (days_before_mono (dt_year u + 1) 1000 ltac:(lia)) as Mo. rewrite days_before_next in Mo. lia.
    - destruct (Z.le_gt_cases (dt_year u) 9999) as [|L]; [assumption|exfalso].
      pose proof (days_before_mono 10000 (dt_year u) ltac:(lia)) as Mo. lia. }
  assert (HD : 1 <= dt_day u <= 31).
  { unfold days_in_month in Hd. destruct (dt_month u =? 2), (is_leap (dt_year u)),
      ((dt_month u =? 4) || (dt_month u =? 6) || (dt_month u =? 9) || (dt_month u =? 11)); lia. }
  destruct (strftime_stamp u HY Hm HD T) as [ES _]. rewrite ES. destruct T as (Th & Tm & Ts & Tu).
  destruct (date_time_stamp (dt_year u) (dt_month u) (dt_day u) (dt_hour u) (dt_minute u) (dt_second u) (dt_micro u)) as (W & DT & L); try lia.
  cbn [fits xcal_DateTimeType]. unfold value_of. cbn [preserves]. rewrite (collapse_word _ W), DT. now apply matches_spec.
Qed.

(** ** Durations *)
Lemma td_neg z : z < 0 -> td_days z < 0.
Proof. intros H. unfold td_days, us_per_day, us_per_s. apply Z.div_lt_upper_bound; lia. Qed.
Lemma in_field u n : 0 <= n -> language (field u) (str_of_Z n ++ String u "").
Proof. intros H. unfold field. apply in_perhaps. right. constructor; [apply in_digits; rewrite str_of_Z_nonneg by exact H; now apply dec_digits_of|now apply in_lit]. Qed.
Lemma some_field u (b : bool) n : 0 <= n -> language (field u) (if b then str_of_Z n ++ String u "" else "").
Proof. intros H. destruct b; [now apply in_field|]. unfold field. apply in_perhaps. now left. Qed.
Lemma duration_spec uri z : fits uri xcal_DurationValueType (timedeltaformat z) = true <-> a_period z.
Proof.
  cbn [fits xcal_DurationValueType andb]. unfold value_of. cbn [preserves]. unfold a_period. split.
  - intros M. destruct (Z.le_gt_cases 0 z) as [|H]; [assumption|exfalso].
    assert (E : exists r, timedeltaformat z = String "P" (String "-" r)).
    { unfold timedeltaformat. apply td_neg in H. destruct (td_days z =? 0) eqn:Q; [apply Z.eqb_eq in Q; lia|]. cbn [negb]. rewrite (str_of_Z_neg _ H).
      generalize (negb (td_seconds z / 3600 =? 0)) (negb (td_seconds z mod 3600 / 60 =? 0)) (negb ((td_seconds z mod 3600) mod 60 =? 0)). intros [] [] []; cbn [append orb]; eexists; reflexivity. }
    destruct E as [r E]. rewrite E in M. cbn [matches] in M. apply matches_spec in M. revert M. apply dead_spec. reflexivity.
  - intros H. apply matches_spec. unfold duration_pattern. apply in_or. left. cbn [seqs]. unfold timedeltaformat.
    assert (B : 0 <= td_days z /\ 0 <= td_seconds z).
    { unfold td_days, td_seconds, us_per_day, us_per_s. split; [apply Z.div_pos; lia|]. apply Z.div_pos; [|lia]. apply Z.mod_pos_bound. lia. }
    set (d := td_days z) in *. set (h := td_seconds z / 3600). set (m := td_seconds z mod 3600 / 60). set (c := (td_seconds z mod 3600) mod 60).
    assert (Hh : 0 <= h) by (apply Z.div_pos; lia). assert (Hm : 0 <= m) by (apply Z.div_pos; [apply Z.mod_pos_bound|]; lia). assert (Hc : 0 <= c) by (apply Z.mod_pos_bound; lia).
    assert (E : forall bd bh bm bs, (if bs : bool then (if bm : bool then (if bh : bool then (if (bh || bm || bs)%bool then (if bd : bool then "P" ++ str_of_Z d ++ "D" else "P") ++ "T" else (if bd : bool then "P" ++ str_of_Z d ++ "D" else "P")) ++ str_of_Z h ++ "H" else
       (if (bh || bm || bs)%bool then (if bd : bool then "P" ++ str_of_Z d ++ "D" else "P") ++ "T" else (if bd : bool then "P" ++ str_of_Z d ++ "D" else "P"))) ++ str_of_Z m ++ "M" else
       (if bh : bool then (if (bh || bm || bs)%bool then (if bd : bool then "P" ++ str_of_Z d ++ "D" else "P") ++ "T" else (if bd : bool then "P" ++ str_of_Z d ++ "D" else "P")) ++ str_of_Z h ++ "H" else
       (if (bh || bm || bs)%bool then (if bd : bool then "P" ++ str_of_Z d ++ "D" else "P") ++ "T" else (if bd : bool then "P" ++ str_of_Z d ++ "D" else "P")))) ++ str_of_Z c ++ "S" else
       (if bm : bool then (if bh : bool then (if (bh || bm || bs)%bool then (if bd : bool then "P" ++ str_of_Z d ++ "D" else "P") ++ "T" else (if bd : bool then "P" ++ str_of_Z d ++ "D" else "P")) ++ str_of_Z h ++ "H" else
       (if (bh || bm || bs)%bool then (if bd : bool then "P" ++ str_of_Z d ++ "D" else "P") ++ "T" else (if bd : bool then "P" ++ str_of_Z d ++ "D" else "P"))) ++ str_of_Z m ++ "M" else
       (if bh : bool then (if (bh || bm || bs)%bool then (if bd : bool then "P" ++ str_of_Z d ++ "D" else "P") ++ "T" else (if bd : bool then "P" ++ str_of_Z d ++ "D" else "P")) ++ str_of_Z h ++ "H" else
       (if (bh || bm || bs)%bool then (if bd : bool then "P" ++ str_of_Z d ++ "D" else "P") ++ "T" else (if bd : bool then "P" ++ str_of_Z d ++ "D" else "P")))))
       = "" ++ "P" ++ "" ++ "" ++ (if bd then str_of_Z d ++ "D" else "") ++ (if (bh || bm || bs)%bool then "T" else "") ++ (if bh then str_of_Z h ++ "H" else "") ++ (if bm then str_of_Z m ++ "M" else "") ++ (if bs then str_of_Z c ++ "S" else "")).
    { intros [] [] [] []; cbn [orb]; repeat rewrite <- ?str_app_assoc, ?str_app_nil; cbn [append]; reflexivity. }
    rewrite E. clear E. constructor; [apply in_sign; cbv; auto|]. constructor; [now apply in_lit|]. constructor; [unfold field; apply in_perhaps; now left|]. constructor; [unfold field; apply in_perhaps; now left|].
    constructor; [now apply some_field|]. constructor; [apply in_perhaps; destruct (_ || _)%bool; [right; now apply in_lit|now left]|]. constructor; [now apply some_field|]. constructor; [now apply some_field|now apply some_field].
Qed.
