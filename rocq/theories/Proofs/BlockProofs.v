(** Messages put together from blocks: elements of one name, one after the other. *)
From Coq Require Import ZArith String Ascii List Bool Lia Arith.
From Verif.Base Require Import Result Dict PyStr ListExtra.
From Verif.Model Require Import Duration DateTime Text Normalize Xml.
From Verif.Spec Require Import TextSpec MessageSpec.
From Verif.Proofs Require Import TextProofs NormalizeProofs MessageProofs.
Import ListNotations.
Local Open Scope string_scope.

(** The name, the elements, and the members they become. *)
Record block := mk_block { b_name : string; b_xmls : list xml; b_members : vdict }.
Definition block_steps (b : block) : list ((string * val) * vdict) :=
  match b_xmls b with [] => [] | xs => [((b_name b, one_or_list (map to_val xs)), b_members b)] end.
Definition one (s : xml * vdict) : block := mk_block (xml_name (fst s)) [fst s] (snd s).
Definition ones (l : list (xml * vdict)) : list block := map one l.
Definition blocks_xmls (bs : list block) : list xml := flat_map b_xmls bs.
Definition blocks_payload (bs : list block) : vdict := concat (map snd (flat_map block_steps bs)).
Definition blocks_fresh (bs : list block) : bool :=
  nodupb ("@schemaVersion" :: map b_name bs)
  && fresh_run [] (map (fun s => (fkey (fst (fst s)) :: map fst (snd s), map fst (snd s))) (flat_map block_steps bs)).

Lemma blocks_xmls_ones l : blocks_xmls (ones l) = map fst l.
Proof. unfold blocks_xmls, ones. induction l as [|s l IH]; [reflexivity|]. cbn. now rewrite IH. Qed.
Lemma blocks_xmls_app a b : blocks_xmls (a ++ b) = (blocks_xmls a ++ blocks_xmls b)%list.
Proof. apply flat_map_app. Qed.
Lemma blocks_payload_app a b : blocks_payload (a ++ b) = (blocks_payload a ++ blocks_payload b)%list.
Proof. unfold blocks_payload. now rewrite flat_map_app, map_app, concat_app. Qed.
Lemma blocks_payload_ones l : blocks_payload (ones l) = steps_payload l.
Proof. unfold blocks_payload, ones, steps_payload. induction l as [|s l IH]; [reflexivity|]. cbn. now rewrite IH. Qed.

Section Blocks.
Context (num : numbers).

Definition good_block (n : nat) (b : block) : Prop :=
  Forall (fun x => xml_name x = b_name b) (b_xmls b) /\ Forall (fun s => adds num n (fst s) (snd s)) (block_steps b).
Definition fixed (n : nat) (p : vdict) : Prop := Forall (fun kv => adds num n kv [kv] /\ fkey (fst kv) = fst kv) p.

Lemma good_one n s : good_step num n s -> good_block n (one s).
Proof. intros [A _]. split; (constructor; [|constructor]); [reflexivity|exact A]. Qed.
Lemma good_ones n l : Forall (good_step num n) l -> Forall (good_block n) (ones l).
Proof. intros F. apply Forall_map. eapply Forall_impl; [|exact F]. intros s. apply good_one. Qed.
Lemma fixed_ones n l : Forall (good_step num n) l -> fixed n (blocks_payload (ones l)).
Proof. intros F. rewrite blocks_payload_ones. unfold steps_payload, fixed. apply Forall_flat_map. eapply Forall_impl; [|exact F]. intros s S. exact (proj2 S). Qed.
Lemma fixed_app n a b : fixed n (blocks_payload a) -> fixed n (blocks_payload b) -> fixed n (blocks_payload (a ++ b)).
Proof. intros A B. rewrite blocks_payload_app. apply Forall_app. now split. Qed.

Lemma push_blocks bs : forall d, Forall (fun b => Forall (fun x => xml_name x = b_name b) (b_xmls b)) bs -> NoDup (map fst d ++ map b_name bs)%list ->
  fold_left (fun d c => push d (xml_name c) (to_val c)) (blocks_xmls bs) d = (d ++ map fst (flat_map block_steps bs))%list.
Proof.
  induction bs as [|b bs IH]; intros d F N; cbn [blocks_xmls flat_map map fold_left]; [now rewrite app_nil_r|].
  inversion F as [|? ? Fb Fbs]; subst. rewrite fold_left_app, map_app.
  assert (A : vget (b_name b) d = None) by (apply vget_none; intros I; cbn [map] in N; apply NoDup_remove_2 in N; apply N, in_or_app; now left).
  assert (N' : NoDup (map fst d ++ map b_name bs)) by (cbn [map] in N; now apply NoDup_remove_1 in N).
  unfold block_steps at 1. destruct (b_xmls b) as [|x xs] eqn:E.
  - cbn [map fold_left app]. now apply IH.
  - rewrite (push_all (b_name b) (x :: xs)); [|assumption|discriminate|assumption].
    change (flat_map b_xmls bs) with (blocks_xmls bs). rewrite IH; [now rewrite <- app_assoc|assumption|].
    rewrite map_app, <- app_assoc. exact N.
Qed.
Lemma blocks_parsed n name bs : Forall (good_block n) bs -> blocks_fresh bs = true ->
  parse_payload num (S n) (Elem name message_attrs "" (blocks_xmls bs)) = Ok (blocks_payload bs).
Proof.
  intros G F. unfold blocks_fresh in F. apply andb_true_iff in F as [F1 F2]. apply nodupb_spec in F1.
  unfold parse_payload. rewrite message_items, push_blocks; [|eapply Forall_impl; [|exact G]; intros b B; exact (proj1 B)|exact F1].
  cbn [app]. rewrite skip_attribute. apply run; [|exact F2]. apply Forall_flat_map. eapply Forall_impl; [|exact G]. intros b B. exact (proj2 B).
Qed.
Lemma blocks_read n name bs : blocks_xmls bs <> [] -> Forall (good_block n) bs -> blocks_fresh bs = true ->
  reads num (S n) (node name (blocks_xmls bs)) (blocks_payload bs).
Proof.
  intros N G F. unfold blocks_fresh in F. apply andb_true_iff in F as [F1 F2]. apply nodupb_spec in F1. inversion F1 as [|? ? _ F3]; subst.
  eexists. split.
  - rewrite to_val_node by exact N. rewrite push_blocks; [reflexivity|eapply Forall_impl; [|exact G]; intros b B; exact (proj1 B)|exact F3].
  - cbn [app]. apply run; [|exact F2]. apply Forall_flat_map. eapply Forall_impl; [|exact G]. intros b B. exact (proj2 B).
Qed.
Lemma blocks_arrive n name bs : blocks_xmls bs <> [] -> Forall (good_block n) bs -> blocks_fresh bs = true ->
  fixed n (blocks_payload bs) -> nodupb (map fst (blocks_payload bs)) = true ->
  arrives num (S n) (node name (blocks_xmls bs)) (blocks_payload bs).
Proof. intros N G F X D. split; [now apply blocks_read|]. now apply stable_intro. Qed.
End Blocks.
