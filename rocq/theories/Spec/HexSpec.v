(** Hexadecimal text, independent of the model. *)
From Coq Require Import ZArith List Bool.
Import ListNotations. Open Scope Z_scope.

(** '0'..'9' then 'a'..'f' *)
Definition hex_digit (v : Z) : Z := if v <? 10 then 48 + v else 87 + v.
Definition hex_of (b : list Z) : list Z := flat_map (fun v => [hex_digit (v / 16); hex_digit (v mod 16)]) b.
(** Equality up to the case of the letters A-F. *)
Definition hex_fold (c : Z) : Z := if (65 <=? c) && (c <=? 70) then c + 32 else c.
Definition is_hex_char (c : Z) : Prop := 48 <= c <= 57 \/ 97 <= c <= 102 \/ 65 <= c <= 70.
(** [b] is what the longest prefix of [s] made of pairs of hexadecimal digits stands for. *)
Definition hex_prefix (s b : list Z) : Prop :=
  exists p q, s = p ++ q /\ map hex_fold p = hex_of b /\ (forall x y r, q = x :: y :: r -> ~ (is_hex_char x /\ is_hex_char y)).
