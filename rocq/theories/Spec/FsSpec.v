(** Calls to the operating system and what a list of them (first call first) leaves behind, independent of the model. *)
From Coq Require Import ZArith List Bool.
Import ListNotations. Open Scope Z_scope.

Inductive syscall :=
| SCreate (f : list Z)                     (* make and open a file *)
| SWrite (f data : list Z)                 (* append to an open file *)
| SExec (path : list Z) (args : list (list Z))
| SClose (f : list Z)
| SRemove (f : list Z).

(** The file [f] is in the directory after the calls. *)
Inductive present (f : list Z) : list syscall -> Prop :=
| present_create l : present f (l ++ [SCreate f])
| present_keep l c : present f l -> c <> SRemove f -> present f (l ++ [c]).
(** A descriptor of [f] is open after the calls. *)
Inductive is_open (f : list Z) : list syscall -> Prop :=
| open_create l : is_open f (l ++ [SCreate f])
| open_keep l c : is_open f l -> c <> SClose f -> is_open f (l ++ [c]).
(** What has been written to [f] since it was made. *)
Inductive holds (f : list Z) : list Z -> list syscall -> Prop :=
| holds_create l : holds f [] (l ++ [SCreate f])
| holds_write l d d' : holds f d l -> holds f (d ++ d') (l ++ [SWrite f d'])
| holds_keep l c d : holds f d l -> c <> SCreate f -> c <> SRemove f -> (forall d', c <> SWrite f d') -> holds f d (l ++ [c]).
(** The files a call concerns *)
Definition concerns (c : syscall) (f : list Z) : Prop :=
  match c with SCreate g | SWrite g _ | SClose g | SRemove g => g = f | SExec _ _ => False end.
(** Calls before, command, calls after *)
Definition runs (l : list syscall) (before : list syscall) (path : list Z) (args : list (list Z)) : Prop := exists after, l = before ++ SExec path args :: after.
