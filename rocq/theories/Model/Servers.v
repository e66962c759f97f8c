(** Several servers in one process: server.py:48-153 (OpenADRServer.__init__)
    and vtn_service.py:34-43.  Settings that are class attributes of VTNService
    are shared by all servers; the rest belongs to one server. *)
From Coq Require Import ZArith String List Bool.
From Verif.Base Require Import Result Dict PyStr.
From Verif.Model Require Import VtnService.
Import ListNotations.
Local Open Scope string_scope.
Local Open Scope Z_scope.

Definition ven_lookup_t := nat -> member -> result (option (dict string scalar)).
Definition fp_lookup_t := member -> result scalar.
(** Certificate and key (their contents), passphrase. *)
Record signing := mk_sign { sg_cert : option string; sg_key : option string; sg_pass : option string }.

(** The arguments of the constructor that are modelled.  [a_types] and
    [a_handle] are the handlers of the server's services (with the user's
    handlers); the files of certificate and key can be read. *)
Record args := mk_sargs {
  a_vtn : scalar;
  a_sign : signing;
  a_fp : option fp_lookup_t;
  a_ven : option ven_lookup_t;
  a_verify : bool;
  a_freq : option Z;
  a_types : list string;
  a_handle : string -> payload -> result hresult }.

(** Class attributes of VTNService. *)
Record shared := mk_shared { sh_verify : bool; sh_sign : option signing; sh_fp : option fp_lookup_t; sh_ven : option ven_lookup_t }.
(** vtn_service.py:36: verify_message_signatures = True; the others do not exist yet. *)
Definition shared_initial : shared := mk_shared true None None None.

(** What belongs to one server. *)
Record server := mk_server { s_vtn : scalar; s_freq : option Z; s_types : list string; s_handle : string -> payload -> result hresult }.

(** server.py:86 (verify_message_signatures), 139-140 (_create_message),
    141-146 (fingerprint_lookup), 147-152 (ven_lookup) *)
Definition construct (a : args) (sh : shared) : shared * server :=
  (mk_shared (a_verify a) (Some (a_sign a))
     (match a_fp a with Some f => Some f | None => sh_fp sh end)
     (match a_ven a with Some f => Some f | None => sh_ven sh end),
   mk_server (a_vtn a) (a_freq a) (a_types a) (a_handle a)).

(** The settings with which a server deals with a request. *)
Definition settings (sh : shared) (s : server) : config := mk_cfg (s_vtn s) (sh_ven sh) (sh_fp sh) (sh_verify sh) (s_types s) (s_handle s).

(** A process constructs servers one after another. *)
Fixpoint construct_all (l : list args) (sh : shared) : shared :=
  match l with [] => sh | a :: l => construct_all l (fst (construct a sh)) end.
