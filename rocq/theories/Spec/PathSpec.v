(** Vocabulary for C18-C22: members, paths and groupings. *)
From Coq Require Import ZArith String Ascii List Bool.
From Verif.Base Require Import Result PyStr PyVal.
Import ListNotations.
Local Open Scope string_scope.

(** [child v k x]: the dict or object [v] has [x] under the name [k]. *)
Inductive child : val -> string -> val -> Prop :=
| child_dict d k x : In (k, x) d -> child (VDict d) k x
| child_obj c d k x : In (k, x) d -> child (VObj c d) k x.

Definition container (v : val) : Prop :=
  match v with VDict _ | VObj _ _ => True | _ => False end.

(** [leads v ks x]: following the names [ks] from [v] one arrives at [x]. *)
Inductive leads : val -> list string -> val -> Prop :=
| leads_here v : leads v [] v
| leads_down v k x ks y : child v k x -> leads x ks y -> leads v (k :: ks) y.

(** [spells key ks]: the dotted text [key] names the path [ks]. *)
Definition spells (key : string) (ks : list string) : Prop :=
  ks <> [] /\ (forall k, In k ks -> no_char "."%char k = true) /\ key = join "." ks.

(** A searched value: one value, or a tuple of alternatives. *)
Definition agrees (x value : val) : Prop :=
  match value with
  | VTuple l => exists y, In y l /\ veq x y = true
  | _ => veq x value = true
  end.

Definition matches (item : val) (params : list (string * val)) : Prop :=
  forall key value ks, In (key, value) params -> spells key ks ->
    exists x, leads item ks x /\ agrees x value.

(** Everything on the way along [ks], as far as it exists, is a dict or an object. *)
Fixpoint containers_along (v : val) (ks : list string) : Prop :=
  match ks with
  | [] => True
  | k :: r => container v /\ forall x, child v k x -> containers_along x r
  end.

(** ... and everything before the last name exists. *)
Fixpoint complete_but_last (v : val) (ks : list string) : Prop :=
  match ks with
  | [] => True
  | [k] => container v
  | k :: r => container v /\ exists x, child v k x /\ complete_but_last x r
  end.

(** The first item that matches, if any. *)
Definition first_match (items : list val) (params : list (string * val)) (r : option val) : Prop :=
  match r with
  | Some it => exists l1 l2, items = (l1 ++ it :: l2)%list /\ matches it params /\ forall x, In x l1 -> ~ matches x params
  | None => forall x, In x items -> ~ matches x params
  end.

(** [grouping pairs g]: [g] sorts the second components of [pairs] by their
    first component, in order of first occurrence, nothing lost. *)
Definition occurrences {K} (dec : forall a b : K, {a = b} + {a <> b}) (l : list K) : list K :=
  rev (nodup dec (rev l)).

Definition grouping {K A} (dec : forall a b : K, {a = b} + {a <> b}) (pairs : list (K * A)) (g : list (K * list A)) : Prop :=
  map fst g = occurrences dec (map fst pairs) /\
  forall k l, In (k, l) g -> l = map snd (filter (fun p => if dec k (fst p) then true else false) pairs).

(** [dict_path v ks x]: following [ks] through dicts, with None for a name
    that is absent. *)
Inductive dict_path : val -> list string -> val -> Prop :=
| dp_here v : dict_path v [] v
| dp_present d k x ks y : In (k, x) d -> dict_path x ks y -> dict_path (VDict d) (k :: ks) y
| dp_absent d k ks y : ~ In k (map fst d) -> dict_path VNone ks y -> dict_path (VDict d) (k :: ks) y.

(** The (type, value) pairs of a list of targets, None values left out. *)
Definition target_pairs (ts : list (list (string * scalar))) : list (string * scalar) :=
  filter (fun p => if scalar_eq_dec (snd p) SNone then false else true) (concat ts).
