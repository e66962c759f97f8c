(** Generic access to dicts and dataclasses: utils.py:441-496, 534-554, 640-686. *)
From Coq Require Import ZArith String Ascii List Bool.
From Verif.Base Require Import Result Dict PyStr PyVal.
Import ListNotations.
Local Open Scope string_scope.

Definition dot : ascii := ".".

(** utils.py:640-650 hasmember.  [member in obj] is a substring test on a
    string and an equality search in a list; other values are not iterable. *)
Definition hasmember (obj : val) (member : string) : result bool :=
  match obj with
  | VObj _ fields => Ok (mem String.eqb member fields)
  | VDict d => Ok (mem String.eqb member d)
  | VS (SStr s) => Ok (contains member s)
  | VList l | VTuple l => Ok (existsb (fun x => veq x (VStr member)) l)
  | _ => Raise TypeError
  end.

(** utils.py:657-667 getmember_inner; [missing = None] stands for the marker
    '_RAISE_'. *)
Definition getmember_inner (obj : val) (member : string) (missing : option val) : result val :=
  match obj, missing with
  | VObj _ fields, None => match get String.eqb member fields with Some v => Ok v | None => Raise AttributeError end
  | VObj _ fields, Some dflt => match get String.eqb member fields with Some v => Ok v | None => Ok dflt end
  | VDict d, None => match get String.eqb member d with Some v => Ok v | None => Raise KeyError end
  | VDict d, Some dflt => match get String.eqb member d with Some v => Ok v | None => Ok dflt end
  | _, None => Raise TypeError
  | _, Some _ => Raise AttributeError
  end.

(** utils.py:653-671 getmember *)
Definition getmember (obj : val) (member : string) (missing : option val) : result val :=
  foldM (fun obj m => getmember_inner obj m missing) (split dot member) obj.

(** The assignment at utils.py:683-686. *)
Definition setmember_here (obj : val) (member : string) (v : val) : result val :=
  match obj with
  | VObj c fields => Ok (VObj c (set String.eqb member v fields))
  | VDict d => Ok (VDict (set String.eqb member v d))
  | _ => Raise TypeError
  end.

(** utils.py:674-686 setmember.  The assignment is in place; the model returns
    the changed object.  [at_path] applies the assignment to the object that
    getmember finds under the leading members. *)
Fixpoint at_path (obj : val) (members : list string) (f : val -> result val) : result val :=
  match members with
  | [] => f obj
  | m :: r =>
    bind (getmember_inner obj m None) (fun sub =>
    bind (at_path sub r f) (fun sub' =>
    match obj with
    | VObj c fields => Ok (VObj c (set String.eqb m sub' fields))
    | VDict d => Ok (VDict (set String.eqb m sub' d))
    | _ => Raise TypeError
    end))
  end.

Definition setmember (obj : val) (member : string) (v : val) : result val :=
  let members := split dot member in
  at_path obj (removelast members) (fun o => setmember_here o (last members "") v).

(** ** find_by: utils.py:441-469 *)

(** Lines 453-458: descend along keys[:-1] and stop - without leaving the
    search - at the first member that is missing. *)
Fixpoint descend (item : val) (keys : list string) : result val :=
  match keys with
  | [] => Ok item
  | k :: r => bind (hasmember item k) (fun b =>
              if b then bind (getmember item k None) (fun sub => descend sub r) else Ok item)
  end.

(** Lines 452-465: one search parameter; [true] when the search goes on. *)
Definition satisfies (item : val) (key : string) (value : val) : result bool :=
  let keys := split dot key in
  bind (descend item (removelast keys)) (fun _item =>
  let key := last keys "" in
  bind (hasmember _item key) (fun b =>
  if b then
    bind (getmember _item key None) (fun x =>
    match value with
    | VTuple l => Ok (existsb (fun y => veq x y) l)
    | _ => Ok (veq x value)
    end)
  else Ok false)).

Fixpoint satisfies_all (item : val) (params : list (string * val)) : result bool :=
  match params with
  | [] => Ok true
  | (k, v) :: r => bind (satisfies item k v) (fun b => if b then satisfies_all item r else Ok false)
  end.

Fixpoint find_loop (items : list val) (params : list (string * val)) : result (option val) :=
  match items with
  | [] => Ok None
  | it :: r => bind (satisfies_all it params) (fun b => if b then Ok (Some it) else find_loop r params)
  end.

(** utils.py:441-469 find_by; [params] are the (key, value) pairs, the first
    one being key, value and the others taken from *args. *)
Definition find_by (dict_or_list : val) (params : list (string * val)) : result (option val) :=
  match dict_or_list with
  | VDict d => find_loop (map snd d) params
  | VList l | VTuple l => find_loop l params
  | _ => Raise TypeError
  end.

(** list.index: the first element that is equal. *)
Fixpoint index_of (it : val) (l : list val) : option nat :=
  match l with
  | [] => None
  | x :: r => if veq x it then Some 0 else option_map S (index_of it r)
  end.

Fixpoint remove_nth {A} (n : nat) (l : list A) : list A :=
  match n, l with
  | _, [] => []
  | 0, _ :: r => r
  | S n, x :: r => x :: remove_nth n r
  end.

(** utils.py:488-496 pop_by: the list afterwards and the item *)
Definition pop_by (list_ : list val) (params : list (string * val)) : result (list val * option val) :=
  bind (find_by (VList list_) params) (fun r =>
  match r with
  | Some item =>
    if truthy item then
      match index_of item list_ with
      | Some i => Ok (remove_nth i list_, Some item)
      | None => Raise ValueError
      end
    else Ok (list_, Some item)
  | None => Ok (list_, None)
  end).

(** ** group_by: utils.py:472-485 *)

(** Line 481: value.get(key), None when absent. *)
Definition dict_get (v : val) (k : string) : result val :=
  match v with
  | VDict d => Ok (match get String.eqb k d with Some x => x | None => VNone end)
  | _ => Raise AttributeError
  end.

Definition group_by (list_ : list val) (key : string) : result (dict val (list val)) :=
  let key_path := split dot key in
  foldM (fun grouped item =>
    bind (foldM dict_get key_path item) (fun value =>
    if hashable value then
      match get veq value grouped with
      | None => Ok (set veq value [item] (grouped))
      | Some g => Ok (set veq value (g ++ [item])%list grouped)
      end
    else Raise TypeError)) list_ [].

(** ** Targets: utils.py:534-554 *)

(** A target is a dict from target types to values; a grouped dict maps target
    types to a list, a single string, or something else. *)
Inductive tval := TList (l : list scalar) | TStr (s : string) | TOther.

(** utils.py:534-543 group_targets_by_type *)
Definition group_targets_by_type (list_of_targets : list (dict string scalar)) : dict string (list scalar) :=
  fold_left (fun tbt target =>
    fold_left (fun tbt '(key, value) =>
      if scalar_eqb value SNone then tbt
      else set String.eqb key ((match get String.eqb key tbt with Some l => l | None => [] end) ++ [value])%list tbt)
      target tbt)
    list_of_targets [].

(** utils.py:546-554 ungroup_targets_by_type *)
Definition ungroup_targets_by_type (targets_by_type : dict string tval) : list (dict string scalar) :=
  flat_map (fun '(target_type, targets) =>
    match targets with
    | TList l => map (fun t => [(target_type, t)]) l
    | TStr s => [[(target_type, SStr s)]]
    | TOther => []
    end) targets_by_type.
