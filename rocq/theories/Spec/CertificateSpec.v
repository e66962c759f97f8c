(** Certificates in files and in messages: base64 (RFC 4648, section 4), its
    layout in lines, and the PEM form. *)
From Coq Require Import NArith String Ascii List.
From Verif.Spec Require Import TextSpec.
Import ListNotations.
Local Open Scope string_scope.

Definition alphabet : string := "ABCDEFGHIJKLMNOPQRSTUVWXYZabcdefghijklmnopqrstuvwxyz0123456789+/".
Definition letter (n : N) : ascii := match String.get (N.to_nat n) alphabet with Some c => c | None => "="%char end.
(** Three bytes are four letters of six bits each; the last group is filled up
    with = signs. *)
Fixpoint base64 (l : list ascii) : string :=
  match l with
  | [] => ""
  | [a] => let n := (N_of_ascii a * 16)%N in String (letter (n / 64)) (String (letter (n mod 64)) "==")
  | [a; b] => let n := ((N_of_ascii a * 256 + N_of_ascii b) * 4)%N in
              String (letter (n / 4096)) (String (letter (n / 64 mod 64)) (String (letter (n mod 64)) "="))
  | a :: b :: c :: r => let n := ((N_of_ascii a * 256 + N_of_ascii b) * 256 + N_of_ascii c)%N in
              String (letter (n / 262144)) (String (letter (n / 4096 mod 64)) (String (letter (n / 64 mod 64)) (String (letter (n mod 64)) (base64 r))))
  end.

(** A text with white space (line ends, indentation) anywhere in it. *)
Inductive laid_out : string -> string -> Prop :=
| lo_end : laid_out "" ""
| lo_char c s t : laid_out s t -> laid_out (String c s) (String c t)
| lo_blank c s t : blank c -> laid_out s t -> laid_out (String c s) t.

(** One certificate in PEM form, with anything between the two lines that is a
    layout of its base64; and several of them in one file (a chain: the party's
    own certificate is the first). *)
Definition pem_text (der : list ascii) (t : string) : Prop :=
  exists body tail, t = "-----BEGIN CERTIFICATE-----" ++ body ++ "-----END CERTIFICATE-----" ++ tail
    /\ laid_out body (base64 der) /\ all_blank tail.
Fixpoint chain_text (ders : list (list ascii)) (t : string) : Prop :=
  match ders with
  | [] => t = ""
  | der :: r => exists t1 t2, t = t1 ++ t2 /\ pem_text der t1 /\ chain_text r t2
  end.

(** Letters only, and a certificate whose text was cut: letters that cannot be
    groups of four. *)
Fixpoint all_letters (t : string) : Prop := match t with EmptyString => True | String c r => (exists n, (n < 64)%N /\ c = letter n) /\ all_letters r end.
Definition cut_text (t : string) : Prop :=
  exists body letters tail, t = "-----BEGIN CERTIFICATE-----" ++ body ++ "-----END CERTIFICATE-----" ++ tail
    /\ laid_out body letters /\ all_letters letters /\ Nat.modulo (String.length letters) 4 <> 0 /\ all_blank tail.
