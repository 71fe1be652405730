(** The cryptographic calls of package tx, given by package bip32 and blake2b: tx_builder.go:31-32
    ([prv.Public().PublicKey()] and [prv.Sign(hash)]) and tx.go:58,89 ([blake2b.Sum256]). *)
From Verif.Model Require Import Base Tx Bip32.
Definition key_PublicKey (prv : bytes) : result bytes := do pub <- Public prv; XPub_PublicKey pub.
Definition tx_crypto (H : Hashes) : TxCrypto := {|
  blake2b256 := blake2b_256;
  key_public := key_PublicKey;
  key_sign := fun prv hash => Sign prv hash |}.
