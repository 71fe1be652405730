(** Model of /repo/crypto/crypto.go: the fixed-length constructors. (Blake2b224 and Blake2b256, lines 38-59,
    are calls to golang.org/x/crypto/blake2b; see Model/Bip32.v and Model/Tx.v for how they are used.) *)
From Verif.Model Require Import Base.

(** crypto.go:10-24 *)
Definition Ed25519KeyHashLen : nat := 28.
Definition ScriptHashLen : nat := 28.
Definition TransactionHashLen : nat := 32.
Definition GenesisDelegateHashLen : nat := 28.
Definition GenesisHashLen : nat := 28.
Definition MetadataHashLen : nat := 32.
Definition VRFKeyHashLen : nat := 32.
Definition BlockHashLen : nat := 32.
Definition VRFVKeyLen : nat := 32.
Definition KESVKeyLen : nat := 32.

(** The common body of the constructors: a zero array, a length check, [copy(res[:], bytes[:N])]. *)
Definition fixed_from_bytes (n : nat) (b : bytes) : result bytes :=
  let res := repeat 0 n in
  if negb (length b =? n)%nat then Err EUnexpectedBytes else
  do src <- slice b 0 n;
  Ok (copy_at res 0 n src).

(** crypto.go:62-69 *)
Definition Ed25519KeyHashFromBytes (b : bytes) : result bytes := fixed_from_bytes Ed25519KeyHashLen b.
(** crypto.go:72-79 *)
Definition ScriptHashFromBytes (b : bytes) : result bytes := fixed_from_bytes ScriptHashLen b.
(** crypto.go:82-89 *)
Definition TransactionHashFromBytes (b : bytes) : result bytes := fixed_from_bytes TransactionHashLen b.
(** crypto.go:92-99 *)
Definition GenesisDelegateHashFromBytes (b : bytes) : result bytes := fixed_from_bytes GenesisDelegateHashLen b.
(** crypto.go:102-109 *)
Definition GenesisHashFromBytes (b : bytes) : result bytes := fixed_from_bytes GenesisHashLen b.
(** crypto.go:112-119 *)
Definition MetadataHashFromBytes (b : bytes) : result bytes := fixed_from_bytes MetadataHashLen b.
(** crypto.go:122-129 *)
Definition VRFKeyHashFromBytes (b : bytes) : result bytes := fixed_from_bytes VRFKeyHashLen b.
(** crypto.go:132-139 *)
Definition BlockHashFromBytes (b : bytes) : result bytes := fixed_from_bytes BlockHashLen b.
(** crypto.go:142-149 *)
Definition VRFVKeyFromBytes (b : bytes) : result bytes := fixed_from_bytes VRFVKeyLen b.
(** crypto.go:152-159 *)
Definition KESVKeyFromBytes (b : bytes) : result bytes := fixed_from_bytes KESVKeyLen b.
