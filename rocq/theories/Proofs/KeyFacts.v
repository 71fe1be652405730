(** Sizes of the results of the real key functions, for arbitrary keys, and derivation along paths. *)
From Verif.Model Require Import Base Limb EdwardsCode Edwards Tx Bip32 Keys.
From Verif.Spec Require Import EdSpec CborSpec Bip32Spec.
From Verif.Proofs Require Import Util RadixFacts ScalarFacts FieldFacts CurveFacts GroupFacts PointFacts TableFacts ScalarMult DecodeFacts TxFacts FeeFacts PrimeOrder Bip32Facts.
Open Scope Z_scope.
#[local] Opaque zmul.

Lemma bytes_all l : bytes_ok l -> all_bytes l. Proof. intros B b I. unfold bytes_ok in B. rewrite Forall_forall in B. exact (B b I). Qed.
Lemma u8_byte x : is_byte (u8 x). Proof. unfold is_byte, u8. apply Z.mod_pos_bound. lia. Qed.
Lemma store_byte t x s : is_byte (store t x s). Proof. destruct s as [[i a] o]. apply u8_byte. Qed.
Lemma stores_bytes t x l : bytes_ok (map (store t x) l). Proof. apply Forall_forall. intros b I. apply in_map_iff in I. destruct I as (s & <- & _). apply store_byte. Qed.
Lemma put_length l i v : length (put l i v) = length l. Proof. revert i. induction l as [|a l IH]; intros [|i]; cbn [put length]; auto. Qed.
Lemma put_bytes l i v : bytes_ok l -> is_byte v -> bytes_ok (put l i v).
Proof. intros B V. revert i. induction B as [|a l A B IH]; intros [|i]; cbn [put]; constructor; auto. apply IH. Qed.
Lemma lxor_byte a b : 0 <= a < 256 -> 0 <= b < 256 -> is_byte (Z.lxor a b).
Proof.
  intros A B. unfold is_byte. split; [apply Z.lxor_nonneg; lia |]. replace (Z.lxor a b) with (Z.lxor a b mod 2 ^ 8); [apply Z.mod_pos_bound; lia |].
  rewrite <- Z.land_ones by lia. apply Z.bits_inj'. intros n N. rewrite Z.land_spec, Z.lxor_spec. destruct (Z.lt_ge_cases n 8).
  - rewrite Z.ones_spec_low by lia. apply andb_true_r.
  - rewrite Z.ones_spec_high by lia. rewrite !byte_high by lia. reflexivity.
Qed.
#[local] Transparent FeToBytes.
Lemma Ext_ToBytes_shape p : bytes_ok (Ext_ToBytes p) /\ length (Ext_ToBytes p) = 32%nat.
Proof.
  unfold Ext_ToBytes, xyz_ToBytes. set (y := FeMul (eY p) (FeInvert (eZ p))). clearbody y. set (x := fst (FeIsNegative _)). clearbody x. cbv zeta.
  assert (B : bytes_ok (fst (FeToBytes y)) /\ length (fst (FeToBytes y)) = 32%nat). { unfold FeToBytes. cbn [fst]. split; [apply stores_bytes | rewrite map_length; reflexivity]. } destruct B as [B L].
  split; [|rewrite put_length; exact L]. apply put_bytes; [exact B |]. apply lxor_byte; [apply byte_nth; exact B | apply u8_byte].
Qed.
#[local] Opaque FeToBytes.
Lemma ScMulAdd_shape a b c : bytes_ok (ScMulAdd a b c) /\ length (ScMulAdd a b c) = 32%nat.
Proof. unfold ScMulAdd. split; [apply stores_bytes | rewrite map_length; reflexivity]. Qed.
Lemma slice_len {A} (l : list A) a b r : slice l a b = Ok r -> r = firstn (b - a) (skipn a l) /\ (a <= b <= length l)%nat.
Proof. unfold slice. destruct ((a <=? b) && (b <=? length l))%nat eqn:E; [|discriminate]. intros Q. apply Ok_inj in Q. apply andb_true_iff in E. destruct E as [E1 E2]. apply Nat.leb_le in E1, E2. auto. Qed.
Lemma MakePublicKey_shape k pk : MakePublicKey k = Ok pk -> bytes_ok pk /\ length pk = 32%nat.
Proof. unfold MakePublicKey. destruct (slice k 0 32) as [s | |]; cbn [bind]; try discriminate. intros E. apply Ok_inj in E. subst pk. apply Ext_ToBytes_shape. Qed.
Section Sizes.
Context {H : Hashes}.
Lemma key_public_shape k pk : key_PublicKey k = Ok pk -> bytes_ok pk /\ length pk = 32%nat.
Proof.
  unfold key_PublicKey, Public, publicKey. destruct (extendedPrivateKey k) as [e | |]; cbn [bind]; try discriminate. destruct (MakePublicKey e) as [p | |] eqn:E; cbn [bind]; try discriminate.
  destruct (XPrv_ChainCode k) as [c | |]; cbn [bind]; try discriminate. intros Q. unfold XPub_PublicKey in Q. apply slice_len in Q. destruct Q as [-> _]. destruct (MakePublicKey_shape _ _ E) as [B L]. cbn [skipn]. change (32 - 0)%nat with 32%nat.
  rewrite firstn_app, L, Nat.sub_diag, firstn_O, app_nil_r, firstn_all2 by lia. auto.
Qed.
Lemma Sign_shape k m sg : Sign k m = Ok sg -> bytes_ok sg /\ length sg = 64%nat.
Proof.
  unfold Sign. destruct (MakePublicKey k) as [pk | |] eqn:E; cbn [bind]; try discriminate. destruct (MakePublicKey_shape _ _ E) as [PB PL]. destruct (slice k 32 64) as [kr | |]; cbn [bind]; try discriminate.
  destruct (slice (sha512 (kr ++ m)) 0 64) as [ho | |]; cbn [bind]; try discriminate. cbv zeta. set (nonce := ScReduce (copy_at _ 0 64 ho)). clearbody nonce. destruct (Ext_ToBytes_shape (GeScalarMultBase nonce)) as [RB RL]. set (R := Ext_ToBytes (GeScalarMultBase nonce)) in *. clearbody R.
  change (copy_at (repeat 0 SignatureLength) 0 64 (getFilledArray SignatureLength 0)) with (repeat 0 64).
  rewrite (copy_head (repeat 0 64) R 32) by (try exact RL; rewrite repeat_length; lia). rewrite (copy_tail (R ++ skipn 32 (repeat 0 64)) pk 32 64) by (try exact PL; rewrite ?app_length, ?skipn_length, ?repeat_length; lia).
  replace (firstn 32 (R ++ skipn 32 (repeat 0 64))) with R by (rewrite firstn_app, RL, Nat.sub_diag, firstn_O, app_nil_r, firstn_all2 by lia; reflexivity).
  destruct (slice k 0 32) as [kl | |]; cbn [bind]; try discriminate. set (h := ScReduce (copy_at _ 0 64 (sha512 _))). clearbody h. destruct (ScMulAdd_shape h (copy_at (repeat 0 32) 0 32 kl) nonce) as [SB SL]. set (s := ScMulAdd _ _ _) in *. clearbody s.
  rewrite (copy_tail (R ++ pk) s 32 64) by (try exact SL; rewrite ?app_length; lia). replace (firstn 32 (R ++ pk)) with R by (rewrite firstn_app, RL, Nat.sub_diag, firstn_O, app_nil_r, firstn_all2 by lia; reflexivity).
  intros Q. apply Ok_inj in Q. subst sg. split; [apply bytes_cat; assumption | rewrite app_length; lia].
Qed.
Theorem tx_crypto_sizes : @key_sizes (tx_crypto H).
Proof.
  intros k. split.
  - intros pk E. destruct (key_public_shape k pk E) as [B L]. split; [apply bytes_all; exact B | exact L].
  - intros h sg E. destruct (Sign_shape k h sg E) as [B L]. split; [apply bytes_all; exact B | exact L].
Qed.
Theorem tx_crypto_hash : hashes_ok -> @hash_ok (tx_crypto H).
Proof. intros (_ & _ & _ & _ & _ & HB) x. destruct (HB x) as [B L]. split; [apply bytes_all; exact B | exact L]. Qed.
Lemma key_public_eq k : key96 k -> key_PublicKey k = Ok (pk_of k).
Proof.
  intros K. unfold key_PublicKey. rewrite (Public_eq k K). cbn [bind]. unfold XPub_PublicKey. destruct (pk_of_ok k K) as [B L]. rewrite slice_0 by (rewrite app_length; lia). rewrite firstn_app, L, Nat.sub_diag, firstn_O, app_nil_r, firstn_all2 by lia. reflexivity.
Qed.

(** ** Paths *)
Fixpoint derive_path (k : bytes) (path : list Z) : result bytes :=
  match path with [] => Ok k | i :: path => do k' <- Derive k i; derive_path k' path end.
Definition grown (n : Z) (k : bytes) : Prop := key96 k /\ le_value (kL k) mod 8 = 0 /\ 2 ^ 254 <= le_value (kL k) /\ le_value (kL k) < 2 ^ 254 + 2 ^ 253 + n * 2 ^ 227.
Lemma grown_step n k i : hashes_ok -> 0 <= n < 2 ^ 26 -> grown n k -> 0 <= i < 2 ^ 32 -> exists k', Derive k i = Ok k' /\ grown (n + 1) k' /\ le_value (kL k) <= le_value (kL k').
Proof.
  intros HO N (K & M8 & LO & HI) I. exists (derive hmac_sha512 (pk_of k) k i). split; [apply Derive_spec; assumption |].
  assert (E : le_value (kL (derive hmac_sha512 (pk_of k) k i)) = le_value (kL k) + 8 * le_value (firstn 28 (hmac_sha512 (chain k) (message_Z (pk_of k) k i)))).
  { unfold derive. rewrite child_kL. pose proof (zfirst_range (chain k) (message_Z (pk_of k) k i) HO). apply Z.mod_small. lia. }
  unfold grown. rewrite E. pose proof (zfirst_range (chain k) (message_Z (pk_of k) k i) HO) as R. set (z := le_value (firstn 28 _)) in *. clearbody z.
  split; [|lia]. split; [apply Derive_key; assumption |]. split; [rewrite (Z.mul_comm 8), Z.mod_add by lia; exact M8 |]. lia.
Qed.
Lemma grown_path path : hashes_ok -> Forall (fun i => 0 <= i < 2 ^ 32) path -> forall n k, 0 <= n -> n + zlen path <= 2 ^ 26 -> grown n k -> exists k', derive_path k path = Ok k' /\ grown (n + zlen path) k'.
Proof.
  intros HO. induction 1 as [|i path I _ IH]; intros n k N L G.
  - exists k. split; [reflexivity |]. change (zlen []) with 0. rewrite Z.add_0_r. exact G.
  - assert (E : zlen (i :: path) = 1 + zlen path) by (unfold zlen; cbn [length]; lia). rewrite E in L. assert (0 <= zlen path) by (unfold zlen; lia). destruct (grown_step n k i HO ltac:(lia) G I) as (k1 & E1 & G1 & _). destruct (IH (n + 1) k1 ltac:(lia) ltac:(lia) G1) as (k' & E2 & G2).
    exists k'. cbn [derive_path]. rewrite E1. cbn [bind]. split; [exact E2 |]. rewrite E. replace (n + (1 + zlen path)) with (n + 1 + zlen path) by ring. exact G2.
Qed.
Lemma normalize_grown mask k : key96 k -> mask = 95 \/ mask = 31 -> grown 0 (normalize mask k).
Proof.
  intros [B L] M. destruct (normalize_ok mask k B ltac:(lia) M) as [NB NL]. assert (K : key96 (normalize mask k)) by (split; [exact NB | lia]). split; [exact K |].
  pose proof (normalize_bits mask k B ltac:(lia) M) as NB'. apply forced_clamped in NB'. destruct (kL_ok _ K) as [KB KL]. pose proof (le_value_pow _ 32 KB KL) as R. change (256 ^ Z.of_nat 32) with (2 ^ 256) in R. destruct (clamped_range _ R NB'). lia.
Qed.
End Sizes.
(** The limit on scalars is sharp. *)
Theorem effective_exact a : 0 <= a < 2 ^ 256 -> (zmul (effective a) base_point = zmul a base_point <-> a <= digit_limit).
Proof.
  intros A. split; intros E; [|rewrite effective_small by lia; reflexivity]. apply top_digit_limit; [lia |]. unfold effective in E. destruct (Z.ltb_spec 8 (top_digit a)) as [G | G]; [|exact G]. exfalso.
  set (t := top_digit a) in *. apply base_mult_eq in E.
  assert (T16 : t <= 16). { unfold t, top_digit. assert (Q : 15 * ((top16 - 1) / 15) = top16 - 1) by exact top16_15. assert (TV : top16 = 2 ^ 252) by reflexivity. rewrite TV in *. set (q := (2 ^ 252 - 1) / 15) in *. clearbody q. apply Z.lt_succ_r. apply Z.div_lt_upper_bound; lia. }
  assert (D : (t * top16) mod ell = 0). { replace (t * top16) with (a - (a - t * top16)) by ring. rewrite Zminus_mod, E, Z.sub_diag. reflexivity. }
  clearbody t. assert (C : t = 9 \/ t = 10 \/ t = 11 \/ t = 12 \/ t = 13 \/ t = 14 \/ t = 15 \/ t = 16) by lia. clear - C D. revert D. repeat (destruct C as [-> | C]); [.. | subst t]; vm_compute; discriminate.
Qed.
