(** The texts of the addresses of a wallet, independent of the model: CIP-1852 paths, CIP-19 layouts, BIP-173 texts. *)
From Coq Require Import ZArith List.
From Verif.Spec Require Import EdSpec Bip32Spec WalletSpec Cip19 BchSpec.
Import ListNotations. Open Scope Z_scope.

(** "addr" on the main network (id 1), "addr_test" on the test network (id 0) *)
Definition address_prefix (id : Z) : list Z := if id =? 0 then [97; 100; 100; 114; 95; 116; 101; 115; 116] else [97; 100; 100; 114].
Definition wallet_hash (hmac : list Z -> list Z -> list Z) (blake : list Z -> list Z) (root path : list Z) : list Z := blake (public_key_of (path_key hmac root path)).
Definition base_text (hmac : list Z -> list Z -> list Z) (blake : list Z -> list Z) (root : list Z) (id : Z) (s : list Z) : Prop :=
  bech32_text s (address_prefix id) (base_layout id false false (wallet_hash hmac blake root payment_path) (wallet_hash hmac blake root stake_path)).
Definition enterprise_text (hmac : list Z -> list Z -> list Z) (blake : list Z -> list Z) (root : list Z) (id : Z) (s : list Z) : Prop :=
  bech32_text s (address_prefix id) (enterprise_layout id false (wallet_hash hmac blake root payment_path)).
(** The account key: m / 1852' / 1815' / 0' *)
Definition account_path : list Z := [hard 1852; hard 1815; hard 0].
