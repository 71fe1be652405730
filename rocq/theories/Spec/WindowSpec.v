(** Signed windows of five bits: what a scalar should be recoded to before a double scalar multiplication. *)
From Coq Require Import ZArith.
Open Scope Z_scope.

(** The digit of a number: 0 for an even one, else the odd number between -15 and 15 that it equals modulo 32. *)
Definition window_digit (u : Z) : Z := if Z.even u then 0 else (u + 16) mod 32 - 16.
(** What is left of a number after its first n digits. *)
Fixpoint left_over (n : nat) (u : Z) : Z :=
  match n with
  | O => u
  | S n' => left_over n' ((u - window_digit u) / 2)
  end.

(** Signed digits of four bits, -8 to 7, of a number of 256 bits. Sixty-four digits are enough only if the top one is small:
    adding 8 to each of the 63 lower digits makes them non-negative, and what stays above them is the top digit. *)
Definition top_digit16 (n : Z) : Z := (n + 0x888888888888888888888888888888888888888888888888888888888888888) / 2 ^ 252.
(** A table of the multiples up to 8 has no entry for a larger top digit: what is lost. *)
Definition lost16 (n : Z) : Z := if 8 <? top_digit16 n then 2 ^ 252 * top_digit16 n else 0.
(** The largest number with a top digit of at most 8. *)
Definition limit16 : Z := 0x8777777777777777777777777777777777777777777777777777777777777777.
