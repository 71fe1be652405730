(** C119: the digest functions of crypto/crypto.go. *)
From Verif.Model Require Import Base Bech32 Tx Bip32 Keys HashFns.
From Verif.Spec Require Import Bip32Spec.
From Verif.Proofs Require Import Util Bip32Facts KeyFacts HashFacts.
From Verif.Props Require Import Bip32.
Open Scope Z_scope.

(** Both return the digest of the hash function they are given, whole and with nothing added. *)
Theorem C119_whole : forall (H : Hashes) d, hashes_ok ->
  Blake2b224 d = Ok (blake2b_224 d) /\ bytes_len 28 (blake2b_224 d) /\ Blake2b256 d = Ok (blake2b_256 d) /\ bytes_len 32 (blake2b_256 d).
Proof.
  intros H d (_ & _ & _ & _ & H5 & H6). destruct (H5 d) as [B5 L5]. destruct (H6 d) as [B6 L6]. unfold Blake2b224, Blake2b256.
  rewrite !slice_0 by lia. cbn [bind]. rewrite !firstn_all2 by lia. rewrite !copy_all by (try assumption; apply repeat_length).
  split; [reflexivity |]. split; [split; assumption |]. split; [reflexivity |]. split; assumption.
Qed.
Print Assumptions C119_whole.
(** With the functions of Model/HashFns.v: BLAKE2b with digests of 28 and of 32 bytes (not one cut from the other). *)
Theorem C119_blake2b : forall d, @Blake2b224 real_hashes d = Ok (BLAKE2b 28 d) /\ @Blake2b256 real_hashes d = Ok (BLAKE2b 32 d).
Proof. intros d. destruct (C119_whole real_hashes d real_hashes_ok) as (A & _ & B & _). split; [exact A | exact B]. Qed.
Print Assumptions C119_blake2b.
(** The hash of a public key and the id of a transaction are these digests: tx.go:58 and 89 call another function (blake2b.Sum256) to the same effect. *)
Theorem C119_uses : forall (H : Hashes) (O : MapOrder) pub n t h, hashes_ok ->
  PublicKey_Hash pub = Blake2b224 pub /\
  (snd (@tx_hash (tx_crypto H) O n t) = Ok h -> exists s, body_marshal (fst (@tx_hash (tx_crypto H) O n t)) = Ok s /\ Blake2b256 s = Ok h).
Proof.
  intros H O pub n t h HO. split; [reflexivity |]. unfold tx_hash, after_aux. destruct (calc_aux n t) as [b | e |]; cbn [fst snd]; try discriminate.
  intros E. change (Body (with_body t b)) with b in E. destruct (body_marshal b) as [s | |] eqn:M; cbn [bind] in E; try discriminate. exists s. split; [reflexivity |].
  rewrite (proj1 (proj2 (proj2 (C119_whole H s HO)))). exact E.
Qed.
Print Assumptions C119_uses.
Example C119_example : hashes_ok (H := toy_hashes) /\ @Blake2b224 toy_hashes [1; 2; 3] <> @Blake2b224 toy_hashes [1; 2; 4].
Proof. split; [exact toy_hashes_ok |]. vm_compute. discriminate. Qed.
