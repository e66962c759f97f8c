(** C08, C09: timestamps. *)
From Coq Require Import ZArith String Ascii Bool Lia.
From Verif.Base Require Import Result PyStr.
From Verif.Model Require Import DateTime.
From Verif.Spec Require Import Rfc5545 Calendar Timestamp Instants.
From Verif.Proofs Require Import DurationProofs DateTimeProofs.
Local Open Scope string_scope.
Local Open Scope Z_scope.

Lemma day_number_by_ord y m d n :
  ord2ymd n = (y, m, d) -> 1 <= n -> day_number (y, m, d) n.
Proof. intros <- H. now apply day_number_of_ord. Qed.

Lemma denotes_range y m d h mi s us off i n :
  denotes y m d h mi s us off i -> ord2ymd n = (y, m, d) ->
  i = ((n * 86400 + h * 3600 + mi * 60 + s) * 1000000 + us) - off.
Proof.
  intros (n' & D & _ & ->) E. apply day_number_ymd2ord in D. apply ord2ymd_spec in E as (E & _). lia.
Qed.

(** ** C08: any aware datetime comes back as a UTC datetime denoting the same instant. *)
Theorem C08_timestamp_round_trip :
  forall t i, dt_denotes t i -> four_digit_utc_year i ->
    exists s u, datetimeformat t = Ok s /\ parse_datetime s = Ok (Parsed u) /\
                dt_off u = 0 /\ dt_denotes u i.
Proof.
  intros t i D (lo & hi & Dlo & Dhi & B). apply denotes_instant in D.
  apply (denotes_range _ _ _ _ _ _ _ _ _ 364878) in Dlo; [|reflexivity].
  apply (denotes_range _ _ _ _ _ _ _ _ _ 3652059) in Dhi; [|reflexivity].
  destruct (round_trip t i D) as (s & u & F & P & O & U); [lia|].
  exists s, u. repeat split; auto. unfold dt_denotes. rewrite O. exact U.
Qed.
Print Assumptions C08_timestamp_round_trip.

(** Different instants never share a text. *)
Theorem C08_no_confusion :
  forall t1 t2 i1 i2 s, dt_denotes t1 i1 -> dt_denotes t2 i2 ->
    four_digit_utc_year i1 -> four_digit_utc_year i2 ->
    datetimeformat t1 = Ok s -> datetimeformat t2 = Ok s -> i1 = i2.
Proof.
  intros t1 t2 i1 i2 s D1 D2 Y1 Y2 F1 F2.
  destruct (C08_timestamp_round_trip t1 i1 D1 Y1) as (s1 & u1 & E1 & P1 & _ & U1).
  destruct (C08_timestamp_round_trip t2 i2 D2 Y2) as (s2 & u2 & E2 & P2 & _ & U2).
  assert (u1 = u2) by congruence. subst. apply denotes_instant in U1, U2. congruence.
Qed.
Print Assumptions C08_no_confusion.

(** An aware datetime denotes at most one instant. *)
Theorem C08_denotes_unique :
  forall t i j, dt_denotes t i -> dt_denotes t j -> i = j.
Proof. intros t i j H1 H2. apply denotes_instant in H1, H2. congruence. Qed.
Print Assumptions C08_denotes_unique.

(** 2020-02-29T23:30:00.000001 at UTC+05:30 is a datetime that meets the hypotheses. *)
Example C08_example :
  exists i, dt_denotes (mkdt 2020 2 29 23 30 0 1 (19800 * 1000000)) i /\ four_digit_utc_year i.
Proof.
  eexists. split.
  - exists 737484. split; [apply day_number_by_ord; [reflexivity|lia]|].
    split; [|reflexivity]. unfold time_of_day; simpl; lia.
  - eexists _, _. split; [exists 364878|split; [exists 3652059|]].
    + split; [apply day_number_by_ord; [reflexivity|lia]|]. split; [unfold time_of_day; lia|reflexivity].
    + split; [apply day_number_by_ord; [reflexivity|lia]|]. split; [unfold time_of_day; lia|reflexivity].
    + simpl. lia.
Qed.

(** ** C09 *)
(** Well-formed text with possible fields is read field by field... *)
Theorem C09_accepts :
  forall s y mo d h mi se us, timestamp_text s y mo d h mi se us -> possible y mo d h mi se us ->
    parse_datetime s = Ok (Parsed (mkdt y mo d h mi se us 0)).
Proof. exact parse_accepts. Qed.
Print Assumptions C09_accepts.

(** ... with impossible fields it is an error ... *)
Theorem C09_impossible_is_error :
  forall s y mo d h mi se us, timestamp_text s y mo d h mi se us -> ~ possible y mo d h mi se us ->
    parse_datetime s = Raise ValueError.
Proof. exact parse_impossible. Qed.
Print Assumptions C09_impossible_is_error.

(** ... and any other text is returned unchanged. *)
Theorem C09_other_text_unchanged :
  forall s, (~ exists y mo d h mi se us, timestamp_text s y mo d h mi se us) ->
    parse_datetime s = Ok (Unparsed s).
Proof.
  intros s N. destruct (timestamp_text_dec s) as [T|T]; [contradiction|apply T].
Qed.
Print Assumptions C09_other_text_unchanged.

Example C09_example :
  timestamp_text "2024-02-29T12:00:59.12345678Z" 2024 2 29 12 0 59 123456
  /\ possible 2024 2 29 12 0 59 123456
  /\ timestamp_text "2023-02-29T12:00:59Z" 2023 2 29 12 0 59 0
  /\ ~ possible 2023 2 29 12 0 59 0.
Proof.
  assert (N : forall k s, k <> 0%nat -> String.length s = k -> all_digits s = true -> number_of_width k s (int_of s))
    by (intros; now apply digits_number_of_width).
  split; [|split; [|split]].
  - eapply (ts_intro "2024" _ "02" _ "29" _ "12" _ "00" _ "59" _ "." "12345678" _ "");
      try (apply (N 4%nat); [discriminate|reflexivity|reflexivity]);
      try (apply (N 2%nat); [discriminate|reflexivity|reflexivity]); [now right|].
    apply (fr_digits "12345678" 12345678). apply (number_complete "12345678"); [reflexivity|discriminate].
  - apply fields_ok_iff. reflexivity.
  - eapply (ts_intro "2023" _ "02" _ "29" _ "12" _ "00" _ "59" _ "" "" _ "");
      try (apply (N 4%nat); [discriminate|reflexivity|reflexivity]);
      try (apply (N 2%nat); [discriminate|reflexivity|reflexivity]); [now left|constructor].
  - intros P. apply fields_ok_iff in P. discriminate.
Qed.
