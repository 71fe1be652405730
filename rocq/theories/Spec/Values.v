(** The addresses, transactions and hash functions the theorems are about (what a Go value of the type satisfies, with lengths
    that fit CBOR), and the CBOR items a transaction stands for. *)
From Verif.Model Require Import Base Cbor Network Address Tx.
From Verif.Spec Require Import CborSpec CrcSpec ByronSpec Cip19 AddressSpec TxSpec MdSpec.

(** ** Byron addresses *)
(** A 28-byte hash, a byte payload of moderate length, a uint8 network, tag 0. *)
Definition byron_ok (b : ByronAddress) : Prop :=
  hash28 (by_hash b) /\ all_bytes (by_payload b) /\ zlen (by_payload b) < 2 ^ 32 /\
  (match by_network b with None => True | Some n => 0 <= n < 256 end) /\ by_tag b = 0.

(** What every Go value satisfies, up to lengths. *)
Definition byron_wf (b : ByronAddress) : Prop :=
  all_bytes (by_hash b) /\ zlen (by_hash b) < 2 ^ 32 /\ all_bytes (by_payload b) /\ zlen (by_payload b) < 2 ^ 32 /\
  (match by_network b with None => True | Some n => 0 <= n < 256 end) /\ 0 <= by_tag b < 2 ^ 64.

(** ** Transactions *)
Definition addr_item (a : Address) : item :=
  match a with
  | AByron b => byron_outer (cbor (byron_inner (by_hash b) (byron_attrs (by_payload b) (by_network b)) (by_tag b)))
  | _ => Bstr (addr_bytes a)
  end.
(** Address bytes are bytes, of moderate length; reward addresses cannot be marshalled. *)
Definition out_ok (o : TxOutput) : Prop :=
  match OutAddress o with
  | AByron b => byron_wf b
  | AReward _ => False
  | a => all_bytes (addr_bytes a) /\ zlen (addr_bytes a) < 2 ^ 64
  end /\ 0 <= OutAmount o < 2 ^ 64.
Definition in_ok (i : TxInput) : Prop := all_bytes (TxHash i) /\ zlen (TxHash i) < 2 ^ 64 /\ 0 <= Index i < 2 ^ 16.
Definition body_ok (b : TxBody) : Prop :=
  Forall in_ok (Inputs b) /\ Forall out_ok (Outputs b) /\ zlen (Inputs b) < 2 ^ 64 /\ zlen (Outputs b) < 2 ^ 64 /\
  0 <= Fee b < 2 ^ 64 /\ 0 <= TTL b < 2 ^ 32 /\ all_bytes (AuxHash b) /\ zlen (AuxHash b) < 2 ^ 64.
Definition wit_ok (w : VKeyWitness) : Prop :=
  all_bytes (VKey w) /\ zlen (VKey w) < 2 ^ 64 /\ all_bytes (Signature w) /\ zlen (Signature w) < 2 ^ 64.
Definition wits_ok (ws : list VKeyWitness) : Prop := Forall wit_ok ws /\ zlen ws < 2 ^ 64.

Definition in_pair (i : TxInput) := (TxHash i, Index i).
Definition out_item (o : TxOutput) : item := Arr [addr_item (OutAddress o); Uint (OutAmount o)].
Definition wit_pair (w : VKeyWitness) := (VKey w, Signature w).
Definition the_body (b : TxBody) : item := body_item (map in_pair (Inputs b)) (map out_item (Outputs b)) (Fee b) (TTL b) (AuxHash b).
Definition the_meta (m : option md) : item := match m with None => null_item | Some m => md_item m end.

Definition tx_ok (t : Tx) : Prop := body_ok (Body t) /\ wits_ok (Witness t) /\ meta_ok (Metadata t).
Definition the_tx (t : Tx) (m : option md) : item := tx_item (the_body (Body t)) (map wit_pair (Witness t)) (Valid t) (the_meta m).
Definition ordered `{MapOrder} (n : nat) (m : option md) : option md := option_map (map_order n) m.

(** ** Amounts, hashes, keys *)
Definition sum_in (b : TxBody) : Z := fold_right Z.add 0 (map InAmount (Inputs b)).
Definition sum_out (b : TxBody) : Z := fold_right Z.add 0 (map OutAmount (Outputs b)).
(** The hash function returns 32 bytes. *)
Definition hash_ok {C : TxCrypto} : Prop := forall x, all_bytes (blake2b256 x) /\ length (blake2b256 x) = 32%nat.
(** Two strings with one hash. *)
Definition collision {C : TxCrypto} (x y : bytes) : Prop := x <> y /\ blake2b256 x = blake2b256 y.
(** Keys whose public keys and signatures are 32 and 64 bytes long. *)
Definition key_sizes {C : TxCrypto} : Prop := forall k, (forall pk, key_public k = Ok pk -> all_bytes pk /\ length pk = 32%nat) /\
  (forall h sg, key_sign k h = Ok sg -> all_bytes sg /\ length sg = 64%nat).
