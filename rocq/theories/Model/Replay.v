(** Replay protection: messaging._verify_replay_protect and
    messaging._update_nonce_cache.

    Timestamps in the cache are aware datetimes; Python hashes and compares
    them by the instant they denote, so a cache entry is (instant in
    microseconds, nonce).  The cache is a Python set: a list in which only
    membership matters. *)
From Coq Require Import ZArith String List Bool.
From Verif.Base Require Import Result.
From Verif.Model Require Import DateTime.
Import ListNotations.
Local Open Scope Z_scope.

Definition entry : Type := Z * string.

Definition entry_eqb (a b : entry) : bool := (fst a =? fst b) && String.eqb (snd a) (snd b).

(** messaging.py:215 REPLAY_PROTECT_MAX_TIME_DELTA = timedelta(seconds=5). *)
Definition max_delta : Z := 5000000.

(** [e in NONCE_CACHE]. *)
Definition in_cache (e : entry) (cache : list entry) : bool := existsb (entry_eqb e) cache.

(** messaging.py:208, set.add. *)
Definition cache_add (e : entry) (cache : list entry) : list entry :=
  if in_cache e cache then cache else cache ++ [e].

(** messaging.py:209-211.  [clk i] is the reading of datetime.now for the i-th
    entry that the loop visits. *)
Fixpoint prune (clk : nat -> Z) (i : nat) (order : list entry) : list entry :=
  match order with
  | [] => []
  | e :: r =>
      if fst e <? clk i - max_delta then prune clk (S i) r else e :: prune clk (S i) r
  end.

(** messaging.py:207-211.  [shuffle] gives the iteration order of the set. *)
Definition update_nonce_cache (shuffle : list entry -> list entry) (clk : nat -> Z)
    (e : entry) (cache : list entry) : list entry :=
  prune clk 0 (shuffle (cache_add e cache)).

(** messaging.py:190-204.  [ts] and [nonce] are the texts found in the
    message (findtext returns None when the element is missing); [now] is the
    clock reading of line 200.  Result: the outcome and the cache afterwards.
    A missing timestamp makes re.match raise TypeError, which line 195 turns
    into ValueError; an impossible date raises ValueError inside
    parse_datetime, likewise; a text that is no timestamp is returned as text
    and the comparison on line 200 raises TypeError. *)
Definition verify_replay_protect (shuffle : list entry -> list entry) (now : Z) (clk : nat -> Z)
    (ts nonce : option string) (cache : list entry) : result unit * list entry :=
  match ts with
  | None => (Raise ValueError, cache)
  | Some text =>
      match parse_datetime text with
      | Raise _ => (Raise ValueError, cache)
      | Ok parsed =>
          match nonce with
          | None => (Raise ValueError, cache)
          | Some n =>
              match parsed with
              | Unparsed _ => (Raise TypeError, cache)
              | Parsed t =>
                  if instant t <? now - max_delta then (Raise ValueError, cache)
                  else if in_cache (instant t, n) cache then (Raise ValueError, cache)
                  else (Ok tt, update_nonce_cache shuffle clk (instant t, n) cache)
              end
          end
      end
  end.

(** One incoming check, with everything the environment contributes. *)
Record check := {
  ck_ts : option string; ck_nonce : option string;
  ck_now : Z; ck_clk : nat -> Z; ck_shuffle : list entry -> list entry }.

Definition do_check (c : check) (cache : list entry) : result unit * list entry :=
  verify_replay_protect (ck_shuffle c) (ck_now c) (ck_clk c) (ck_ts c) (ck_nonce c) cache.

(** A history of checks in one process (messaging.py:216: NONCE_CACHE starts
    empty): the outcomes in order. *)
Fixpoint outcomes (h : list check) (cache : list entry) : list (result unit) :=
  match h with
  | [] => []
  | c :: r => let (o, cache') := do_check c cache in o :: outcomes r cache'
  end.
Definition history_outcomes (h : list check) : list (result unit) := outcomes h [].
