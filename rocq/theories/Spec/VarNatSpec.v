(** CIP-19 variable-length naturals, independent of the model: big-endian groups of seven bits, every
    byte but the last with its top bit set. *)
From Coq Require Import ZArith List.
Import ListNotations. Open Scope Z_scope.

(** The number a byte sequence denotes. *)
Definition value128 (l : list Z) : Z := fold_left (fun a b => a * 128 + b mod 128) l 0.

(** One well-formed item: continuation bytes, then a final byte. *)
Definition item128 (l : list Z) : Prop :=
  exists g x, l = g ++ [x] /\ (forall b, In b g -> 128 <= b < 256) /\ 0 <= x < 128.

(** No leading zero group. *)
Definition minimal128 (l : list Z) : Prop := length l = 1%nat \/ nth 0 l 0 <> 128.
