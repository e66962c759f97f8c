(** C94: the choices of the package and the choices of the schema. *)
From Coq Require Import ZArith String Ascii List Bool Sorted.
From Verif.Base Require Import Result Dict PyStr.
From Verif.Model Require Import Objects Server Constructors Preflight Measurements ClientReports Xml Schema SchemaTypes Enums.
From Verif.Spec Require Import AcceptedSpec ChoiceSpec.
From Verif.Proofs Require Import RegexProofs SchemaValueProofs ChoiceProofs.
Import ListNotations.
Local Open Scope string_scope.

(** What the package takes, the schema allows. *)
Definition C94_full_taken : Prop := forall uri f s, is_choice f -> takes f s -> allows uri f s.
Theorem C94_taken_refuted : ~ C94_full_taken.
Proof.
  intros F. specialize (F (fun _ => true) SignalName "x-" I). assert (T : takes SignalName "x-") by (apply takes_spec; [discriminate|]; right; split; [now left|reflexivity]).
  apply (taken_iff (fun _ => true) SignalName "x-" I T) in F; [|exact T]. apply F. split; [now left|now left].
Qed.
(** It does not for a value of one's own that has no name, and otherwise it does. *)
Theorem C94_taken_partial uri f s : is_choice f -> takes f s -> (allows uri f s <-> ~ (open_choice f /\ nameless s)).
Proof. apply taken_iff. Qed.

(** What the schema allows, the package takes. *)
Definition C94_full_known : Prop := forall uri f s, is_choice f -> tidy s -> allows uri f s -> takes f s.
Theorem C94_known_refuted : ~ C94_full_known.
Proof.
  intros F. assert (T : tidy "AED") by (split; [discriminate|apply reads_collapse; reflexivity]). assert (M : is_choice (Unit "currency")) by now left.
  assert (A : allows (fun _ => true) (Unit "currency") "AED").
  { apply allows_unit. exists (Simple [] clm5ISO42173A_ISO3AlphaCurrencyCodeContentType). split; [now left|]. apply valid_simple. reflexivity. }
  specialize (F _ _ _ M T A). apply (known_iff (fun _ => true) _ _ M T A) in F. apply F. apply un_dirham. now left.
Qed.
(** Which values of the schema the package does not take. *)
Theorem C94_known_partial uri f s : is_choice f -> tidy s -> allows uri f s -> (takes f s <-> ~ unknown_to_package f s).
Proof. apply known_iff. Qed.

(** The members of a class are its names that are not those of the metaclass and
    not private, in order; its values are those that the members end with. *)
Theorem C94_members b : Sorted (fun x y => String.leb x y = true) (members b) /\ (forall k, In k (members b) <-> member_name k /\ exists v, ends_as b k v) /\
  (forall v, In v (values b) <-> exists k, member_name k /\ ends_as b k v).
Proof. split; [apply sorted_sorted|]. split; [apply members_are|apply values_are]. Qed.

(** The classes of the package have the values that its functions are checked with. *)
Theorem C94_enumerations s :
  (In s (values SIGNAL_TYPE) <-> In s SIGNAL_TYPE_values) /\ (In s (values SIGNAL_NAME) <-> In s SIGNAL_NAME_values) /\ (In s (values SI_SCALE_CODE) <-> In s SI_SCALE_CODE_values) /\
  (In s (values OPT) <-> In s OPT_values) /\ (In s (values OPT_REASON) <-> In s OPT_REASON_values) /\ (In s (values READING_TYPE) <-> In s READING_TYPE_values) /\
  (In s (values REPORT_TYPE) <-> In s REPORT_TYPE_values) /\ (In s (values REPORT_NAME) <-> In s REPORT_NAME_values) /\ (In s (values SIGNAL_TARGET_MRID) <-> In s SIGNAL_TARGET_MRID_values).
Proof. repeat match goal with |- _ /\ _ => split end; apply same_values; vm_compute; reflexivity. Qed.

(** Values of every kind: listed, of one's own, and unknown. *)
Example C94_example_taken : takes ReadingType "Direct Read" /\ allows (fun _ => true) ReadingType "Direct Read" /\ takes ReportName "x-mine" /\ allows (fun _ => true) ReportName "x-mine" /\
  takes (Unit "powerReal") "W" /\ allows (fun _ => true) (Unit "powerReal") "W".
Proof.
  assert (A : takes ReadingType "Direct Read") by (apply takes_spec; [discriminate|]; left; apply existsb_In; reflexivity).
  assert (B : takes ReportName "x-mine") by (apply takes_spec; [discriminate|]; right; split; [right; now left|reflexivity]).
  assert (M : is_choice (Unit "powerReal")) by (apply existsb_In; reflexivity).
  assert (C : takes (Unit "powerReal") "W") by (apply unit_taken; [exact M|]; split; [discriminate|]; right; exists ["W"]; split; [reflexivity|now left]).
  split; [exact A|]. split; [apply taken_iff; [exact I|exact A|]; intros [_ [H|(c & r & H & _)]]; discriminate H|].
  split; [exact B|]. split; [apply taken_iff; [exact I|exact B|]; intros [_ [H|(c & r & H & N)]]; [discriminate H|]; injection H as <- _; apply space_spec in N; discriminate N|].
  split; [exact C|]. apply taken_iff; [exact M|exact C|]. intros [[H|[H|[H|[H|[]]]]] _]; discriminate H.
Qed.
Example C94_example_unknown : ~ takes OptReason "x-holiday" /\ allows (fun _ => true) OptReason "x-holiday" /\ ~ takes (Unit "powerReal") "J/s" /\ allows (fun _ => true) (Unit "powerReal") "J/s".
Proof.
  assert (T : tidy "x-holiday") by (split; [discriminate|apply reads_collapse; reflexivity]). assert (U : tidy "J/s") by (split; [discriminate|apply reads_collapse; reflexivity]).
  assert (A : allows (fun _ => true) OptReason "x-holiday") by reflexivity. assert (M : is_choice (Unit "powerReal")) by (apply existsb_In; reflexivity).
  assert (B : allows (fun _ => true) (Unit "powerReal") "J/s") by (apply allows_unit; exists (Simple [] (OneOf Token ["W"; "J/s"])); split; [now left|]; apply valid_simple; reflexivity).
  split; [|split; [exact A|]; split; [|exact B]].
  - intros H. apply (known_iff (fun _ => true) OptReason _ I T A) in H. apply H. constructor; [|discriminate]. exists "h"%char, "oliday". split; [reflexivity|]. intros N. apply space_spec in N. discriminate N.
  - intros H. apply (known_iff (fun _ => true) _ _ M U B) in H. apply H. constructor.
Qed.
Example C94_example_class : members [("B", "one"); ("_hidden", "two"); ("A", "three"); ("values", "four"); ("B", "five")] = ["A"; "B"] /\
  values [("B", "one"); ("_hidden", "two"); ("A", "three"); ("values", "four"); ("B", "five")] = ["three"; "five"].
Proof. split; reflexivity. Qed.

Print Assumptions C94_taken_refuted.
Print Assumptions C94_taken_partial.
Print Assumptions C94_known_refuted.
Print Assumptions C94_known_partial.
Print Assumptions C94_members.
Print Assumptions C94_enumerations.
