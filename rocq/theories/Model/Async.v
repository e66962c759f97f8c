(** Awaiting results: utils.py:770-786, and hooks: hooks.py, client.py:368-381,
    1136-1142. *)
From Coq Require Import ZArith String List Bool.
From Verif.Base Require Import Result Dict.
Import ListNotations.
Local Open Scope string_scope.

(** ** gather_if_required *)

(** What a handler gave back for one item: a plain value, or a coroutine, of
    which we only know how it will end. *)
Inductive item (A : Type) : Type :=
| Plain (a : A)
| Coro (outcome : result A).
Arguments Plain {A} a.
Arguments Coro {A} outcome.

Definition iscoroutine {A} (i : item A) : bool := match i with Plain _ => false | Coro _ => true end.

(** utils.py:770-773 await_if_required *)
Definition await_if_required {A} (i : item A) : result A :=
  match i with Plain a => Ok a | Coro o => o end.

(** asyncio.gather without return_exceptions (library code, modelled after
    Lib/asyncio/tasks.py): each child reports when it is done; the first
    exception completes the gathering future; when the last child is done the
    results are read from the children in argument order. *)
Record gathering (A : Type) := { g_finished : nat; g_outer : option (result (list A)) }.
Arguments g_finished {A} _.
Arguments g_outer {A} _.

Definition gather_done {A} (children : list (result A)) (g : gathering A) (i : nat) : gathering A :=
  let n := S (g_finished g) in
  match g_outer g with
  | Some _ => {| g_finished := n; g_outer := g_outer g |}
  | None =>
    match nth_error children i with
    | Some (Raise e) => {| g_finished := n; g_outer := Some (Raise e) |}
    | _ => {| g_finished := n;
              g_outer := if Nat.eqb n (length children) then Some (mapM (fun c => c) children) else None |}
    end
  end.

(** [order] is the order in which the event loop finishes the children. *)
Definition asyncio_gather {A} (children : list (result A)) (order : list nat) : option (result (list A)) :=
  g_outer (fold_left (gather_done children) order {| g_finished := 0; g_outer := None |}).

(** utils.py:776-786 gather_if_required; [None] when the event loop never
    finishes the children. *)
Definition gather_if_required {A} (results : option (list (item A))) (order : list nat)
  : option (result (option (list A))) :=
  match results with
  | None => Some (Ok None)
  | Some rs =>
    if Nat.ltb 0 (length rs) then
      if negb (existsb iscoroutine rs) then
        Some (Ok (Some (flat_map (fun r => match r with Plain a => [a] | Coro _ => [] end) rs)))
      else if forallb iscoroutine rs then
        option_map (fun o => match o with Ok l => Ok (Some l) | Raise e => Raise e end)
                   (asyncio_gather (map await_if_required rs) order)
      else Some (match mapM await_if_required rs with Ok l => Ok (Some l) | Raise e => Raise e end)
    else Some (Ok (Some []))
  end.

(** ** Hooks of the VTN: hooks.py *)

(** How a registered hook behaves when it is called: it returns a coroutine
    (it was an async def), returns something else, or raises. *)
Inductive vtn_hook := HAsync (id : nat) | HSync (id : nat) | HRaising (id : nat) (e : exn).

Definition vtn_hook_id (h : vtn_hook) : nat := match h with HAsync i | HSync i => i | HRaising i _ => i end.

Definition hook_registry := dict string (list vtn_hook).

(** hooks.py:19-22 *)
Definition vtn_hooks_initial : hook_registry :=
  [("before_parse", []); ("before_handle", []); ("after_handle", []); ("before_respond", [])].

(** hooks.py:25-32 register *)
Definition hooks_register (r : hook_registry) (point : string) (h : vtn_hook) : result hook_registry :=
  match get String.eqb point r with
  | None => Raise ValueError
  | Some hs => Ok (set String.eqb point (hs ++ [h])%list r)
  end.

(** hooks.py:35-38 call: the hooks that were called, the ones for which a task
    was created, and the outcome.  create_task raises TypeError for anything
    that is not a coroutine. *)
Fixpoint hooks_call_loop (hs : list vtn_hook) (called scheduled : list nat) : list nat * list nat * result unit :=
  match hs with
  | [] => (called, scheduled, Ok tt)
  | HAsync i :: r => hooks_call_loop r ((called ++ [i])%list) ((scheduled ++ [i])%list)
  | HSync i :: r => ((called ++ [i])%list, scheduled, Raise TypeError)
  | HRaising i e :: r => ((called ++ [i])%list, scheduled, Raise e)
  end.

Definition hooks_call (r : hook_registry) (point : string) : list nat * list nat * result unit :=
  hooks_call_loop (match get String.eqb point r with Some hs => hs | None => [] end) [] [].
