(** Sizes and ranges of the outputs of the hash functions of Model/HashFns.v: they are an instance of [hashes_ok], the
    only assumption the theorems about keys make on the hash functions. *)
From Coq Require Import ZArith List Lia.
From Verif.Model Require Import Base Bip32 HashFns.
From Verif.Proofs Require Import Util Bip32Facts.
Import ListNotations. Open Scope Z_scope.

Lemma land_byte x : is_byte (Z.land x 255).
Proof. unfold is_byte. change 255 with (Z.ones 8). rewrite Z.land_ones by lia. apply Z.mod_pos_bound. lia. Qed.
Lemma lxor_byte x y : is_byte x -> is_byte y -> is_byte (Z.lxor x y).
Proof.
  unfold is_byte. intros X Y. replace (Z.lxor x y) with (Z.lxor x y mod 2 ^ 8); [apply Z.mod_pos_bound; lia |].
  rewrite <- Z.land_ones by lia. rewrite <- (Z.mod_small x (2 ^ 8)) at 1 by lia. rewrite <- (Z.mod_small y (2 ^ 8)) at 1 by lia.
  rewrite <- !Z.land_ones by lia. apply Z.bits_inj'. intros n N. rewrite !Z.land_spec, !Z.lxor_spec, !Z.land_spec.
  replace (Z.testbit x n) with (Z.testbit x n && Z.testbit (Z.ones 8) n)%bool.
  2:{ rewrite <- Z.land_spec, Z.land_ones by lia. rewrite Z.mod_small by lia. reflexivity. }
  replace (Z.testbit y n) with (Z.testbit y n && Z.testbit (Z.ones 8) n)%bool.
  2:{ rewrite <- Z.land_spec, Z.land_ones by lia. rewrite Z.mod_small by lia. reflexivity. }
  destruct (Z.testbit x n), (Z.testbit y n), (Z.testbit (Z.ones 8) n); reflexivity.
Qed.
Lemma be_bytes_ok n x : bytes_ok (be_bytes n x) /\ length (be_bytes n x) = n.
Proof.
  revert x. induction n as [|n IH]; intros x; [split; [constructor | reflexivity] |]. cbn [be_bytes]. destruct (IH (Z.shiftr x 8)) as [B L]. split.
  - apply Forall_app. split; [exact B | constructor; [apply land_byte | constructor]].
  - rewrite app_length, L. cbn. lia.
Qed.
Lemma le_bytes_ok n x : bytes_ok (le_bytes n x) /\ length (le_bytes n x) = n.
Proof.
  revert x. induction n as [|n IH]; intros x; [split; [constructor | reflexivity] |]. cbn [le_bytes]. destruct (IH (Z.shiftr x 8)) as [B L]. split.
  - constructor; [apply land_byte | exact B].
  - cbn [length]. rewrite L. reflexivity.
Qed.
Lemma flat_blocks_ok {A} (f : A -> bytes) n l : (forall x, bytes_ok (f x) /\ length (f x) = n) -> bytes_ok (flat_map f l) /\ length (flat_map f l) = (n * length l)%nat.
Proof.
  intros F. induction l as [|x l [B L]]; [split; [constructor | cbn; lia] |]. cbn [flat_map]. destruct (F x) as [Bx Lx]. split; [apply Forall_app; split; assumption |].
  rewrite app_length, L, Lx. cbn [length]. lia.
Qed.
Lemma bytes_of_state_ok n st : bytes_ok (bytes_of_state n st) /\ length (bytes_of_state n st) = (n * 8)%nat.
Proof. destruct st as [[[[[[[a b] c] d] e] f] g] h]. unfold bytes_of_state. exact (flat_blocks_ok (be_bytes n) n [a; b; c; d; e; f; g; h] (be_bytes_ok n)). Qed.
Lemma sha2_from_ok p st dn m : bytes_ok (sha2_from p st dn m) /\ length (sha2_from p st dn m) = (s2_bytes p * 8)%nat.
Proof. unfold sha2_from. apply bytes_of_state_ok. Qed.
Lemma hmac_with_ok ks m : bytes_ok (hmac_with ks m) /\ length (hmac_with ks m) = 64%nat.
Proof. unfold hmac_with. exact (sha2_from_ok sha512_params _ _ _). Qed.
Lemma xor_bytes_ok a : forall b, bytes_ok a -> bytes_ok b -> bytes_ok (xor_bytes a b) /\ length (xor_bytes a b) = Nat.min (length a) (length b).
Proof.
  induction a as [|x a IH]; intros [|y b] A B; try (split; [constructor | reflexivity]). cbn [xor_bytes length Nat.min].
  inversion A as [|? ? A1 A2]; subst. inversion B as [|? ? B1 B2]; subst. destruct (IH b A2 B2) as [O L]. split; [constructor; [apply lxor_byte; assumption | exact O] |]. rewrite L. reflexivity.
Qed.
Lemma pbkdf2_block_ok ks salt iter i : bytes_ok (pbkdf2_block ks salt iter i) /\ length (pbkdf2_block ks salt iter i) = 64%nat.
Proof.
  unfold pbkdf2_block. set (u := hmac_with _ _). assert (U : bytes_ok u /\ length u = 64%nat) by apply hmac_with_ok. clearbody u.
  set (f := fun ut : bytes * bytes => _). destruct (iter - 1) as [|p | p]; cbn [Z.iter]; try exact U.
  apply (Pos.iter_invariant p (bytes * bytes) f (fun ut => bytes_ok (snd ut) /\ length (snd ut) = 64%nat)); [| exact U].
  intros [v t] [B L]. cbn [snd fst f] in *. pose proof (hmac_with_ok ks v) as [B' L']. destruct (xor_bytes_ok t (hmac_with ks v) B B') as [O E]. split; [exact O |]. rewrite E, L, L'. reflexivity.
Qed.
Lemma PBKDF2_ok p s i n : bytes_ok (PBKDF2_SHA512 p s i n) /\ length (PBKDF2_SHA512 p s i n) = n.
Proof.
  unfold PBKDF2_SHA512. destruct (flat_blocks_ok (pbkdf2_block (hmac_states p) s i) 64 (seq 1 ((n + 63) / 64)) (pbkdf2_block_ok _ _ _)) as [B L].
  split; [apply Forall_firstn'; exact B |]. rewrite firstn_length, L, seq_length. apply Nat.min_l. pose proof (Nat.div_mod (n + 63) 64 ltac:(lia)) as D. pose proof (Nat.mod_upper_bound (n + 63) 64 ltac:(lia)). lia.
Qed.
Lemma BLAKE2b_ok n m : (n <= 64)%nat -> bytes_ok (BLAKE2b n m) /\ length (BLAKE2b n m) = n.
Proof.
  intros N. unfold BLAKE2b. set (x := blake2b_blocks _ _ _ _). clearbody x. destruct x as [[[[a b] c] d] [[[e f] g] h]].
  destruct (flat_blocks_ok (le_bytes 8) 8 [a; b; c; d; e; f; g; h] (le_bytes_ok 8)) as [B L]. split; [apply Forall_firstn'; exact B |]. rewrite firstn_length, L. cbn [length]. lia.
Qed.
Lemma real_hashes_ok : @hashes_ok real_hashes.
Proof.
  unfold hashes_ok. cbn [sha256 sha512 hmac_sha512 pbkdf2_sha512 blake2b_224 blake2b_256 real_hashes].
  split; [intros m; exact (sha2_from_ok sha256_params _ _ m) |]. split; [intros m; exact (sha2_from_ok sha512_params _ _ m) |].
  split; [intros k m; apply hmac_with_ok |]. split; [intros; apply PBKDF2_ok |]. split; intros m; apply BLAKE2b_ok; lia.
Qed.

(** HMAC with saved states is the formula of RFC 2104. *)
Lemma sha2_from_block p st dn blk m : (0 < s2_bytes p)%nat -> length blk = (16 * s2_bytes p)%nat ->
  sha2_from p (sha2_block p st blk) (dn + Z.of_nat (16 * s2_bytes p)) m = sha2_from p st dn (blk ++ m).
Proof.
  intros P L. unfold sha2_from. rewrite (app_length blk m), L, Nat2Z.inj_add, Z.add_assoc. set (pad := sha2_pad _ _). clearbody pad. rewrite <- app_assoc. set (r := m ++ pad). clearbody r.
  rewrite (app_length blk r), L. replace ((16 * s2_bytes p + length r) / (16 * s2_bytes p))%nat with (S (length r / (16 * s2_bytes p)))%nat.
  2:{ replace (16 * s2_bytes p + length r)%nat with (length r + 1 * (16 * s2_bytes p))%nat by lia. rewrite Nat.div_add by lia. lia. }
  cbn [pieces fold_left]. rewrite firstn_app, skipn_app, <- L, Nat.sub_diag, firstn_O, skipn_O, firstn_all, skipn_all, app_nil_r. reflexivity.
Qed.
Lemma HMAC_rfc2104 k m : let k0 := hmac_key k in
  HMAC_SHA512 k m = SHA512 (map (Z.lxor 92) k0 ++ SHA512 (map (Z.lxor 54) k0 ++ m)).
Proof.
  intros k0. assert (L : length k0 = 128%nat).
  { unfold k0, hmac_key. destruct (Nat.ltb_spec 128 (length k)); rewrite app_length, repeat_length; [| lia]. destruct (sha2_from_ok sha512_params sha512_init 0 k) as [_ E]. unfold SHA512. rewrite E. reflexivity. }
  unfold HMAC_SHA512, hmac_states. fold k0. clearbody k0. unfold hmac_with. cbn [fst snd]. unfold SHA512.
  rewrite <- !(sha2_from_block sha512_params) by (try (rewrite map_length, L; reflexivity); cbn; lia). reflexivity.
Qed.
