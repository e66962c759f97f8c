(** URLs, and the services of OpenADR. *)
From Coq Require Import String Ascii List Bool.
From Verif.Base Require Import Result.
From Verif.Model Require Import Routes.
Import ListNotations.
Local Open Scope string_scope.

Fixpoint has_slash (s : string) : Prop := match s with EmptyString => False | String c r => c = "/"%char \/ has_slash r end.
Fixpoint slashes (n : nat) : string := match n with O => "" | S n => String "/" (slashes n) end.
(** Two texts that differ in slashes at their ends at most. *)
Definition same_place (p q : string) : Prop := exists r n m, p = r ++ slashes n /\ q = r ++ slashes m.

(** scheme://host/path, without anything that would have to be interpreted
    (queries, fragments, escapes, dots that stand for directories). *)
Definition letter (c : ascii) : Prop := In c (list_ascii_of_string "abcdefghijklmnopqrstuvwxyzABCDEFGHIJKLMNOPQRSTUVWXYZ0123456789-_~").
Definition path_char (c : ascii) : Prop := letter c \/ c = "/"%char \/ c = "."%char.
Fixpoint all_chars (P : ascii -> Prop) (s : string) : Prop := match s with EmptyString => True | String c r => P c /\ all_chars P r end.
(** A part between slashes is neither . nor .. *)
Definition no_dot_segment (p : string) : Prop :=
  forall a d b, d = "." \/ d = ".." -> p = a ++ d ++ b -> (a = "" \/ exists a', a = a' ++ "/") -> (b = "" \/ exists b', b = "/" ++ b') -> False.
Definition plain_path (p : string) : Prop := all_chars path_char p /\ no_dot_segment p /\ (p = "" \/ exists r, p = "/" ++ r).
Definition plain_host (h : string) : Prop := h <> "" /\ all_chars (fun c => letter c \/ c = "."%char \/ c = ":"%char) h.
Definition located (url scheme host path : string) : Prop :=
  url = scheme ++ "://" ++ host ++ path /\ all_chars letter scheme /\ plain_host host /\ plain_path path.

(** OpenADR 2.0b, the services and their messages. *)
Definition standard : list (string * list string) :=
  [("EiEvent", ["oadrRequestEvent"; "oadrDistributeEvent"; "oadrCreatedEvent"; "oadrResponse"]);
   ("EiReport", ["oadrRegisterReport"; "oadrRegisteredReport"; "oadrCreateReport"; "oadrCreatedReport"; "oadrUpdateReport"; "oadrUpdatedReport"; "oadrCancelReport"; "oadrCanceledReport"; "oadrResponse"]);
   ("EiRegisterParty", ["oadrQueryRegistration"; "oadrCreatePartyRegistration"; "oadrCreatedPartyRegistration"; "oadrCancelPartyRegistration"; "oadrCanceledPartyRegistration"; "oadrRequestReregistration"; "oadrResponse"]);
   ("EiOpt", ["oadrCreateOpt"; "oadrCreatedOpt"; "oadrCancelOpt"; "oadrCanceledOpt"]);
   ("OadrPoll", ["oadrPoll"; "oadrResponse"])].
Definition belongs (service message : string) : Prop := exists l, In (service, l) standard /\ In message l.

(** A method of the class is marked as the handler for these messages. *)
Definition marked (c : service_class) (method message : string) : Prop := In (method, Some message) (sc_methods c).
