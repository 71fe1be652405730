(** The wallet recipes of the examples: examples/transactions/txbuilder/main.go, examples/address/generate/main.go,
    examples/address/restore/main.go and tx/tx_builder_test.go contain the same code. *)
From Verif.Model Require Import Base Network Address Bip32.
Open Scope Z_scope.

(** examples/address/generate/main.go:13-15: uint32(0x80000000 + num), the sum in uint. *)
Definition harden (num : Z) : Z := u32 (u64 (2147483648 + num)).

Section Wallet.
Context {H : Hashes}.

(** txbuilder/main.go:61, restore/main.go:67,85 *)
Definition accountKey (rootKey : bytes) : result bytes :=
  do k <- Derive rootKey (harden 1852);
  do k <- Derive k (harden 1815);
  Derive k (harden 0).
(** [key.Public().PublicKey().Hash()]: txbuilder/main.go:64-65,67-68 *)
Definition key_hash (prv : bytes) : result bytes :=
  do pub <- Public prv;
  do pk <- XPub_PublicKey pub;
  PublicKey_Hash pk.
(** txbuilder/main.go:60-81, with the key that signs for the address *)
Definition generateBaseAddress (net : NetworkInfo) (rootKey : bytes) : result (BaseAddress * bytes) :=
  do account <- accountKey rootKey;
  do k <- Derive account 0;
  do utxoPrvKey <- Derive k 0;
  do utxoPubKeyHash <- key_hash utxoPrvKey;
  do k <- Derive account 2;
  do stakeKey <- Derive k 0;
  do stakeKeyHash <- key_hash stakeKey;
  Ok (NewBaseAddress net {| Kind := 0; Payload := utxoPubKeyHash |} {| Kind := 0; Payload := stakeKeyHash |}, utxoPrvKey).
(** restore/main.go:61-77 *)
Definition generateEnterprise (net : NetworkInfo) (entropy : bytes) : result EnterpriseAddress :=
  do rootKey <- FromBip39Entropy entropy [];
  do account <- accountKey rootKey;
  do k <- Derive account 0;
  do k <- Derive k 0;
  do h <- key_hash k;
  Ok (NewEnterpriseAddress net (NewKeyStakeCredential h)).
(** restore/main.go:79-104 *)
Definition restoreBaseAddress (net : NetworkInfo) (entropy : bytes) : result BaseAddress :=
  do rootKey <- FromBip39Entropy entropy [];
  do ' (addr, _) <- generateBaseAddress net rootKey;
  Ok addr.
End Wallet.
