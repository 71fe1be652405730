(** Model of the Go standard library's hash/crc32 ChecksumIEEE (byron.go:55,78), written as the
    bit-serial algorithm (reflected polynomial 0xEDB88320); Go's table-driven code computes the same
    function. *)
From Verif.Model Require Import Base.

Definition crc_bit (c : Z) : Z :=
  if Z.odd c then Z.lxor (Z.shiftr c 1) 0xEDB88320 else Z.shiftr c 1.
Definition crc_byte (c b : Z) : Z :=
  Nat.iter 8 crc_bit (Z.lxor c b).
Definition crc32 (data : bytes) : Z :=
  Z.lxor (fold_left crc_byte data 0xFFFFFFFF) 0xFFFFFFFF.
