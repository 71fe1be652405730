(** CRC-32 (ISO 3309, the checksum of Byron addresses) as division by the generator polynomial
    x^32 + x^26 + x^23 + x^22 + x^16 + x^12 + x^11 + x^10 + x^8 + x^7 + x^5 + x^4 + x^2 + x + 1,
    one message bit at a time, least significant bit of each byte first. Independent of the model. *)
From Coq Require Import ZArith List Bool.
Import ListNotations. Open Scope Z_scope.

Definition generator : Z := (* without x^32 *)
  fold_left (fun v e => v + 2 ^ e) [26; 23; 22; 16; 12; 11; 10; 8; 7; 5; 4; 2; 1; 0] 0.

(** The remainder so far, times x, plus the next message bit times x^32, modulo the generator. *)
Definition crc_step (s : Z) (b : bool) : Z :=
  Z.lxor ((2 * s) mod 2 ^ 32) (if xorb (Z.testbit s 31) b then generator else 0).

Definition bits_lsb (x : Z) : list bool := map (Z.testbit x) [0; 1; 2; 3; 4; 5; 6; 7].

(** The coefficient of x^31 becomes the least significant bit. *)
Definition reflect32 (s : Z) : Z :=
  fold_left (fun v i => v + (if Z.testbit s i then 2 ^ (31 - i) else 0)) (map Z.of_nat (seq 0 32)) 0.

Definition crc_spec (data : list Z) : Z :=
  Z.lxor (reflect32 (fold_left crc_step (flat_map bits_lsb data) (2 ^ 32 - 1))) (2 ^ 32 - 1).
