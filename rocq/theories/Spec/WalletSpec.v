(** Keys at a derivation path, and the paths of CIP-1852, independent of the model. *)
From Coq Require Import ZArith List.
From Verif.Spec Require Import EdSpec Bip32Spec.
Import ListNotations. Open Scope Z_scope.

(** The key reached from [k] by the indices of [path], in order. *)
Fixpoint path_key (hmac : list Z -> list Z -> list Z) (k : list Z) (path : list Z) : list Z :=
  match path with
  | [] => k
  | i :: rest => path_key hmac (derive hmac (public_of (le_value (kL k))) k i) rest
  end.
Definition hard (i : Z) : Z := 2 ^ 31 + i.
(** CIP-1852: m / 1852' / 1815' / 0' / role / 0 *)
Definition payment_path : list Z := [hard 1852; hard 1815; hard 0; 0; 0].
Definition stake_path : list Z := [hard 1852; hard 1815; hard 0; 2; 0].
Definition public_key_of (k : list Z) : list Z := public_of (le_value (kL k)).
