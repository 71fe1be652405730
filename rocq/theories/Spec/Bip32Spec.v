(** BIP32-Ed25519 (Khovratovich, Law) and Ed25519 signatures (RFC 8032), independent of the model.
    A key is kL (32 bytes) || kR (32 bytes) || chain code (32 bytes). *)
From Coq Require Import ZArith List Bool.
From Verif.Spec Require Import EdSpec.
Import ListNotations. Open Scope Z_scope.

Definition kL (k : list Z) : list Z := firstn 32 k.
Definition kR (k : list Z) : list Z := firstn 32 (skipn 32 k).
Definition chain (k : list Z) : list Z := skipn 64 k.
(** The public key of a scalar *)
Definition public_of (n : Z) : list Z := encode_point (zmul n base_point).
(** Serialisation of an index: four bytes, least significant first *)
Definition le4 (i : Z) : list Z := [i mod 256; i / 256 mod 256; i / 65536 mod 256; i / 16777216 mod 256].
(** The bytes fed to HMAC-SHA-512 for key material (first) and chain code (second); [pk] is the public key of [k]. *)
Definition hardened (i : Z) : bool := 2 ^ 31 <=? i.
Definition message_Z (pk k : list Z) (i : Z) : list Z := if hardened i then 0 :: firstn 64 k ++ le4 i else 2 :: pk ++ le4 i.
Definition message_c (pk k : list Z) (i : Z) : list Z := if hardened i then 1 :: firstn 64 k ++ le4 i else 3 :: pk ++ le4 i.
(** The child key made of the key [k], the HMAC output Z for key material and the output for the chain code. *)
Definition child (k z c : list Z) : list Z :=
  le32 ((le_value (kL k) + 8 * le_value (firstn 28 z)) mod 2 ^ 256) ++
  le32 ((le_value (kR k) + le_value (firstn 32 (skipn 32 z))) mod 2 ^ 256) ++ skipn 32 c.
Definition derive (hmac : list Z -> list Z -> list Z) (pk k : list Z) (i : Z) : list Z :=
  child k (hmac (chain k) (message_Z pk k i)) (hmac (chain k) (message_c pk k i)).

(** Bits of the scalar of a root key: lowest three clear, highest clear, second-highest set, third-highest clear. *)
Definition clamped (n : Z) : Prop :=
  (forall i, 0 <= i <= 2 -> Z.testbit n i = false) /\ Z.testbit n 255 = false /\ Z.testbit n 254 = true /\ Z.testbit n 253 = false.

(** RFC 8032, section 5.1.7, with the group equation without cofactor: [sig] is a signature of [m] under the public key [pk].
    [h] is SHA-512. *)
Definition verifies (h : list Z -> list Z) (pk m sig : list Z) : Prop :=
  exists A R, on_curve A /\ encode_point A = pk /\ on_curve R /\ encode_point R = firstn 32 sig /\
    length sig = 64%nat /\ le_value (skipn 32 sig) < ell /\
    zmul (le_value (skipn 32 sig)) base_point = padd R (zmul (le_value (h (firstn 32 sig ++ pk ++ m))) A).

(** What an attacker computes from a parent's extended public key (public key || chain code) and the private key of its child [i], i soft:
    subtract what the derivation added. *)
Definition undo (hmac : list Z -> list Z -> list Z) (xpub child : list Z) (i : Z) : list Z :=
  let z := hmac (skipn 32 xpub) (2 :: firstn 32 xpub ++ le4 i) in
  le32 ((le_value (kL child) - 8 * le_value (firstn 28 z)) mod 2 ^ 256) ++
  le32 ((le_value (kR child) - le_value (skipn 32 z)) mod 2 ^ 256) ++ skipn 32 xpub.
(** The same along a path of soft indices, given the extended public keys of all the keys above; innermost last. *)
Fixpoint undo_path (hmac : list Z -> list Z -> list Z) (path : list (list Z * Z)) (child : list Z) : list Z :=
  match path with
  | [] => child
  | (xpub, i) :: rest => undo hmac xpub (undo_path hmac rest child) i
  end.
