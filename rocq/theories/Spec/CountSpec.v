(** What MinFee counts for the inputs and outputs of a transaction, its own placeholder for change included (tx_builder.go:99-108). *)
From Verif.Model Require Import Base Cbor Address Tx.
From Verif.Spec Require Import CborSpec TxSpec Values.
Definition total (l : list Z) : Z := fold_right Z.add 0 l.
Definition balanced (b : TxBody) : bool := sum_in b mod 2 ^ 64 =? sum_out b mod 2 ^ 64.
(** A base address (59 bytes), the head of a pair, and the amount. *)
Definition placeholder_size (b : TxBody) : Z := 60 + uint_size ((sum_in b - sum_out b - 200000) mod 2 ^ 64).
Definition counted (b : TxBody) : Z :=
  uint_size (zlen (Inputs b)) + total (map (fun i => zlen (cbor (input_item (in_pair i)))) (Inputs b)) +
  (if balanced b then uint_size (zlen (Outputs b)) else uint_size (zlen (Outputs b) + 1) + placeholder_size b) +
  total (map (fun o => zlen (cbor (out_item o))) (Outputs b)).
