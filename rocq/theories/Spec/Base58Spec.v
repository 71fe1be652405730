(** Base58 text (Bitcoin alphabet), independent of the model. *)
From Coq Require Import ZArith List.
Import ListNotations. Open Scope Z_scope.

(** Characters that occur in base58 text: digits and letters except 0, O, I and l. *)
Definition b58_char (c : Z) : Prop :=
  (49 <= c <= 57 \/ 65 <= c <= 90 \/ 97 <= c <= 122) /\ c <> 73 /\ c <> 79 /\ c <> 108.

(** The digit a character stands for: its rank in ASCII order among the characters above. *)
Definition b58_digit (c : Z) : Z :=
  if c <=? 57 then c - 49
  else if c <=? 72 then c - 56
  else if c <=? 78 then c - 57
  else if c <=? 90 then c - 58
  else if c <=? 107 then c - 64
  else c - 65.

(** Positional value, most significant digit first. *)
Fixpoint pos_value (base : Z) (l : list Z) : Z :=
  match l with
  | [] => 0
  | d :: r => d * base ^ Z.of_nat (length r) + pos_value base r
  end.

(** [s] is the base58 text of [b]: the same number of leading '1' as of leading zero bytes, and the rest
    is the same number without leading zero digit. *)
Definition b58_text (s b : list Z) : Prop :=
  exists k t c, s = repeat 49 k ++ t /\ b = repeat 0 k ++ c /\
    (forall x, In x t -> b58_char x) /\ nth 0 t 0 <> 49 /\ nth 0 c 1 <> 0 /\
    pos_value 58 (map b58_digit t) = pos_value 256 c.
