(** Vocabulary for C57 and C58: registration. *)
From Coq Require Import ZArith String List Bool.
From Verif.Base Require Import Result Dict PyStr.
From Verif.Model Require Import VtnService Registration.
Import ListNotations.
Local Open Scope string_scope.
Local Open Scope Z_scope.

(** A value that counts as an identifier for the VEN. *)
Definition usable (v : scalar) : Prop := v <> SNone /\ v <> SStr "" /\ v <> SInt 0 /\ v <> SBool false /\ (forall n, v <> SDec 0 n).

(** The answer grants the registration [r]; or it is a regular answer that
    grants nothing; or it is no regular answer. *)
Definition grants (o : outcome) (a : answer) (r : scalar) : Prop := o = Answered a /\ an_code a = Some (SInt 200) /\ an_reg a = Some r /\ usable r.
Definition denies (o : outcome) (a : answer) : Prop := o = Answered a /\ an_code a = Some (SInt 200) /\ (forall r, an_reg a = Some r -> ~ usable r).
Definition fails (o : outcome) : Prop := forall a, o = Answered a -> an_code a <> Some (SInt 200).

(** The VTN confirms a cancellation. *)
Definition confirms (o : outcome) : Prop := exists a, o = Answered a /\ an_type a = "oadrCanceledPartyRegistration" /\ an_code a = Some (SInt 200).
(** [x] ends the registration of [s], and the VEN completes it. *)
Definition ends_registration (x : step) (s : ven) : Prop :=
  (exists o, x = SCancel o /\ v_reg s <> SNone /\ confirms o) \/
  (exists o, x = SPoll (PCancel (Some (v_reg s)) o) /\ v_reg s <> SNone /\ o <> Empty).

(** The answers that a step brings. *)
Definition polled_outcomes (p : polled) : list outcome := match p with PRereg o _ _ => [o] | _ => [] end.
Definition outcomes (x : step) : list outcome :=
  match x with
  | SRun q o _ _ first => q :: o :: polled_outcomes first
  | SRegister o => [o]
  | SReregister o _ _ => [o]
  | SPoll p => polled_outcomes p
  | _ => []
  end.
Definition given (xs : list step) (r : scalar) : Prop := exists x a, In x xs /\ In (Answered a) (outcomes x) /\ an_reg a = Some r.
Definition runs (x : step) : Prop := exists q o reports sync first, x = SRun q o reports sync first.
Definition polls_every (s : ven) (f : Z) : Prop := In (JPoll f) (v_jobs s).
