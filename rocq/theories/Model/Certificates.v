(** The certificate of a party: utils.certificate_fingerprint
    (utils.py:399-404), utils.get_cert_fingerprint_from_request
    (utils.py:526-531) and what they take from the Python library:
    ssl.PEM_cert_to_DER_cert and base64.decodebytes.  The digest is the oracle
    of Model/Text. *)
From Coq Require Import ZArith NArith String Ascii List Bool.
From Verif.Base Require Import Result PyStr.
From Verif.Model Require Import Text Signature.
Import ListNotations.
Local Open Scope string_scope.

(** binascii (table_a2b_base64): the value of a letter; None for every other
    character. *)
Definition letter_value (c : ascii) : option N :=
  let n := N_of_ascii c in
  if ((65 <=? n) && (n <=? 90))%N then Some (n - 65)%N
  else if ((97 <=? n) && (n <=? 122))%N then Some (n - 71)%N
  else if ((48 <=? n) && (n <=? 57))%N then Some (n + 4)%N
  else if (n =? 43)%N then Some 62%N
  else if (n =? 47)%N then Some 63%N
  else None.

(** binascii.a2b_base64, which base64.decodebytes (called at utils.py:403 by way
    of ssl.PEM_cert_to_DER_cert) is: the loop over the characters.  [quad] is
    the number of letters read of the current four, [left] what is left over of
    their bits, [pads] the number of = signs since the last letter.  Other
    characters are skipped; the = signs that complete a group of four end the
    text; binascii.Error is a ValueError. *)
Fixpoint a2b (s : string) (quad : nat) (left : N) (pads : nat) : result (list ascii) :=
  match s with
  | EmptyString => match quad with 0 => Ok [] | _ => Raise ValueError end
  | String c r =>
    if Ascii.eqb c "=" then
      if (2 <=? quad)%nat then if (4 <=? quad + S pads)%nat then Ok [] else a2b r quad left (S pads)
      else a2b r quad left pads
    else
      match letter_value c with
      | None => a2b r quad left pads
      | Some v =>
        match quad with
        | 0 => a2b r 1 v 0
        | 1 => bind (a2b r 2 (v mod 16)%N 0) (fun l => Ok (ascii_of_N (left * 4 + v / 16) :: l))
        | 2 => bind (a2b r 3 (v mod 4)%N 0) (fun l => Ok (ascii_of_N (left * 16 + v / 4) :: l))
        | _ => bind (a2b r 0 0%N 0) (fun l => Ok (ascii_of_N (left * 64 + v) :: l))
        end
      end
  end.

(** str.encode('ASCII', 'strict'): UnicodeEncodeError is a ValueError. *)
Fixpoint is_ascii (s : string) : bool :=
  match s with EmptyString => true | String c r => (N_of_ascii c <? 128)%N && is_ascii r end.
Definition decodebytes (s : string) : result (list ascii) := if is_ascii s then a2b s 0 0%N 0 else Raise ValueError.

Definition PEM_HEADER := "-----BEGIN CERTIFICATE-----".
Definition PEM_FOOTER := "-----END CERTIFICATE-----".
(** ssl.PEM_cert_to_DER_cert (called at utils.py:403). *)
Definition PEM_cert_to_DER_cert (s : string) : result (list ascii) :=
  if negb (startswith PEM_HEADER s) then Raise ValueError
  else
    let t := strip s in
    if negb (ends_with PEM_FOOTER t) then Raise ValueError
    else decodebytes (substring (String.length PEM_HEADER) (String.length t - String.length PEM_FOOTER - String.length PEM_HEADER) t).

Section Digest.
Variable sha256 : list ascii -> list ascii.
(** utils.py:399-404.  (ensure_str: bytes that are not UTF-8 are not
    modelled.) *)
Definition certificate_fingerprint (certificate_str : string) : result string :=
  bind (PEM_cert_to_DER_cert certificate_str) (fun der_bytes => Ok (certificate_fingerprint_from_der sha256 der_bytes)).
(** utils.py:526-531.  [ssl_object] is what the transport has of the TLS
    connection, if it is one: the certificate of the peer, if it sent one. *)
Definition get_cert_fingerprint_from_request (ssl_object : option (option (list ascii))) : option string :=
  match ssl_object with
  | Some (Some (b :: r)) => Some (certificate_fingerprint_from_der sha256 (b :: r))
  | _ => None
  end.
End Digest.
