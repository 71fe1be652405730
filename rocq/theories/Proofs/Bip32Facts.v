(** Facts about bip32: byte arithmetic, derivation, public keys, signatures. *)
From Verif.Model Require Import Base Edwards Bip32.
From Verif.Spec Require Import EdSpec Bip32Spec.
From Verif.Proofs Require Import Util RadixFacts ScalarFacts FieldFacts CurveFacts GroupFacts PointFacts TableFacts ScalarMult DecodeFacts.
Open Scope Z_scope.
#[local] Opaque zmul.

(** The hash functions return byte strings of their declared length. *)
Definition hashes_ok {H : Hashes} : Prop :=
  (forall m, bytes_ok (sha256 m) /\ length (sha256 m) = 32%nat) /\
  (forall m, bytes_ok (sha512 m) /\ length (sha512 m) = 64%nat) /\
  (forall k m, bytes_ok (hmac_sha512 k m) /\ length (hmac_sha512 k m) = 64%nat) /\
  (forall p s i n, bytes_ok (pbkdf2_sha512 p s i n) /\ length (pbkdf2_sha512 p s i n) = n) /\
  (forall m, bytes_ok (blake2b_224 m) /\ length (blake2b_224 m) = 28%nat) /\
  (forall m, bytes_ok (blake2b_256 m) /\ length (blake2b_256 m) = 32%nat).

(** ** Slices *)
Lemma slice_ok {A} (l : list A) a b : (a <= b)%nat -> (b <= length l)%nat -> slice l a b = Ok (firstn (b - a) (skipn a l)).
Proof. intros X Y. unfold slice. apply Nat.leb_le in X, Y. rewrite X, Y. reflexivity. Qed.
Lemma slice_0 {A} (l : list A) b : (b <= length l)%nat -> slice l 0 b = Ok (firstn b l).
Proof. intros X. rewrite slice_ok by lia. rewrite Nat.sub_0_r. reflexivity. Qed.
Lemma slice_end {A} (l : list A) a : (a <= length l)%nat -> slice l a (length l) = Ok (skipn a l).
Proof. intros X. rewrite slice_ok by lia. rewrite firstn_all2; [reflexivity | rewrite skipn_length; lia]. Qed.
Lemma index_ok (l : bytes) i : (i < length l)%nat -> index l i = Ok (nth i l 0).
Proof. intros X. unfold index. rewrite (nth_error_nth' l 0 X). reflexivity. Qed.
Lemma copy_all {A} (d s : list A) n : length d = n -> length s = n -> copy_at d 0 n s = s.
Proof. intros D S. unfold copy_at. rewrite Nat.sub_0_r, S, Nat.min_id. cbn [firstn app]. rewrite firstn_all2 by lia. rewrite skipn_all2 by lia. apply app_nil_r. Qed.
Lemma copy_head {A} (d s : list A) n : (n <= length d)%nat -> length s = n -> copy_at d 0 n s = s ++ skipn n d.
Proof. intros D S. unfold copy_at. rewrite Nat.sub_0_r, S, Nat.min_id. cbn [firstn app]. rewrite firstn_all2 by lia. reflexivity. Qed.
Lemma copy_tail {A} (d s : list A) a n : length d = n -> (a <= n)%nat -> length s = (n - a)%nat -> copy_at d a n s = firstn a d ++ s.
Proof. intros D N S. unfold copy_at. rewrite S, Nat.min_id. rewrite (firstn_all2 s) by lia. rewrite skipn_all2 by lia. rewrite app_nil_r. reflexivity. Qed.
Lemma update_ok l i f : (i < length l)%nat -> update l i f = Ok (firstn i l ++ f (nth i l 0) :: skipn (S i) l).
Proof. intros X. unfold update. rewrite index_ok by exact X. reflexivity. Qed.
Lemma bytes_cat a b : bytes_ok a -> bytes_ok b -> bytes_ok (a ++ b). Proof. intros. apply Forall_app. split; assumption. Qed.
Lemma le_value_pow l n : bytes_ok l -> length l = n -> 0 <= le_value l < 256 ^ Z.of_nat n.
Proof. intros B <-. apply le_value_range. exact B. Qed.
Lemma nth_skipn0 (l : bytes) a : (a < length l)%nat -> skipn a l = nth a l 0 :: skipn (S a) l.
Proof. revert a. induction l as [|x l IH]; intros [|a] A; cbn in *; try lia; [reflexivity |]. apply IH. lia. Qed.

Lemma byte_nth l i : bytes_ok l -> 0 <= nth i l 0 < 256.
Proof.
  intros B. destruct (Nat.lt_ge_cases i (length l)) as [X | X]; [|rewrite nth_overflow by lia; lia]. unfold bytes_ok in B. rewrite Forall_forall in B. exact (B _ (nth_In l 0 X)).
Qed.

(** ** The addition loops *)
Lemma add_loop_spec m x y (g : nat -> result Z) (gv : nat -> Z) : bytes_ok x -> bytes_ok y -> 0 <= m <= 8 ->
  forall n a c, (a + n <= length x)%nat -> (forall i, (a <= i < a + n)%nat -> g i = Ok (m * nth i y 0)) -> (a + n <= length y)%nat -> 0 <= c <= 8 ->
  exists out c', add_loop (seq a n) x g c = Ok (out, c') /\ bytes_ok out /\ length out = n /\ 0 <= c' <= 8 /\
    le_value out + 256 ^ Z.of_nat n * c' = le_value (firstn n (skipn a x)) + m * le_value (firstn n (skipn a y)) + c.
Proof.
  intros X Y M. induction n as [|n IH]; intros a c Lx G Ly C.
  - exists [], c. cbn [seq add_loop firstn le_value length]. change (256 ^ Z.of_nat 0) with 1. split; [reflexivity |]. split; [constructor |]. split; [reflexivity |]. lia.
  - cbn [seq add_loop]. rewrite index_ok by lia. cbn [bind]. rewrite G by lia. cbn [bind].
    pose proof (byte_nth x a X) as Bx. pose proof (byte_nth y a Y) as By.
    rewrite (nth_skipn0 x a), (nth_skipn0 y a) by lia. cbn [firstn le_value]. set (xa := nth a x 0) in *. set (ya := nth a y 0) in *.
    assert (MY : 0 <= m * ya <= 2040) by nia. assert (E : u16 (u16 (u16 xa + m * ya) + c) = xa + m * ya + c). { unfold u16. rewrite (Z.mod_small xa) by lia. rewrite (Z.mod_small (xa + m * ya)) by lia. apply Z.mod_small. lia. }
    rewrite E. set (r := xa + m * ya + c) in *. assert (R : 0 <= r <= 2303) by lia.
    rewrite Z.shiftr_div_pow2 by lia. change (2 ^ 8) with 256. pose proof (Z.div_mod r 256 ltac:(lia)) as D. pose proof (Z.mod_pos_bound r 256 ltac:(lia)) as MB.
    assert (Q : 0 <= r / 256 <= 8) by (split; [apply Z.div_pos; lia | apply Z.lt_succ_r; apply Z.div_lt_upper_bound; lia]).
    destruct (IH (S a) (r / 256) ltac:(lia) ltac:(intros i I; apply G; lia) ltac:(lia) Q) as (out & c' & E1 & E2 & E3 & E4 & E5). rewrite E1. cbn [bind].
    exists (u8 (Z.land r 255) :: out), c'. split; [reflexivity |]. change 255 with (Z.ones 8). rewrite Z.land_ones by lia. change (2 ^ 8) with 256. unfold u8. change (2 ^ 8) with 256. rewrite Z.mod_mod by lia.
    split; [constructor; [exact MB | exact E2] |]. cbn [length]. split; [rewrite E3; reflexivity |]. split; [exact E4 |]. cbn [le_value]. rewrite Nat2Z.inj_succ, Z.pow_succ_r by lia. clearbody xa ya. subst r. nia.
Qed.
Theorem add256bits_spec x y : bytes_ok x -> bytes_ok y -> length x = 32%nat -> length y = 32%nat -> add256bits x y = Ok (le32 ((le_value x + le_value y) mod 2 ^ 256)).
Proof.
  intros X Y Lx Ly. unfold add256bits.
  assert (G : forall i, (0 <= i < 0 + 32)%nat -> (do yi <- index y i; Ok (u16 yi)) = Ok (1 * nth i y 0)).
  { intros i I. rewrite index_ok by lia. cbn [bind]. f_equal. unfold u16. pose proof (byte_nth y i Y). rewrite Z.mod_small; lia. }
  destruct (add_loop_spec 1 x y _ (fun _ => 0) X Y ltac:(lia) 32 0 0 ltac:(lia) G ltac:(lia) ltac:(lia)) as (out & c & E1 & E2 & E3 & E4 & E5). rewrite E1. cbn [bind]. f_equal.
  cbn [skipn] in E5. rewrite !firstn_all2 in E5 by lia. change (256 ^ Z.of_nat 32) with (2 ^ 256) in E5. pose proof (le_value_pow out 32 E2 E3) as B. change (256 ^ Z.of_nat 32) with (2 ^ 256) in B.
  assert (V : (le_value x + le_value y) mod 2 ^ 256 = le_value out). { symmetry. apply (Z.mod_unique_pos _ _ c); lia. } rewrite V. apply le_value_inj; [exact E2 | apply le32_bytes | rewrite le32_length; exact E3 | rewrite le_value_le32 by lia; reflexivity].
Qed.
Theorem add28mul8_spec x y : bytes_ok x -> bytes_ok y -> length x = 32%nat -> length y = 32%nat -> add28mul8 x y = Ok (le32 ((le_value x + 8 * le_value (firstn 28 y)) mod 2 ^ 256)).
Proof.
  intros X Y Lx Ly. unfold add28mul8.
  assert (G : forall i, (0 <= i < 0 + 28)%nat -> (do yi <- index y i; Ok (u16 (Z.shiftl (u16 yi) 3))) = Ok (8 * nth i y 0)).
  { intros i I. rewrite index_ok by lia. cbn [bind]. f_equal. pose proof (byte_nth y i Y) as B. unfold u16. rewrite (Z.mod_small (nth i y 0)) by lia. rewrite Z.shiftl_mul_pow2 by lia. rewrite Z.mod_small by lia. lia. }
  destruct (add_loop_spec 8 x y _ (fun _ => 0) X Y ltac:(lia) 28 0 0 ltac:(lia) G ltac:(lia) ltac:(lia)) as (lo & c & E1 & E2 & E3 & E4 & E5). rewrite E1. cbn [bind].
  destruct (add_loop_spec 0 x y (fun _ => Ok 0) (fun _ => 0) X Y ltac:(lia) 4 28 c ltac:(lia) ltac:(intros; reflexivity) ltac:(lia) E4) as (hi & c2 & F1 & F2 & F3 & F4 & F5). rewrite F1. cbn [bind]. f_equal.
  assert (B : bytes_ok (lo ++ hi)) by (apply bytes_cat; assumption). assert (L : length (lo ++ hi) = 32%nat) by (rewrite app_length; lia). pose proof (le_value_pow _ 32 B L) as R. change (256 ^ Z.of_nat 32) with (2 ^ 256) in R.
  assert (V : (le_value x + 8 * le_value (firstn 28 y)) mod 2 ^ 256 = le_value (lo ++ hi)).
  { symmetry. apply (Z.mod_unique_pos _ _ c2); [lia |]. rewrite <- (firstn_skipn 28 x) at 1. rewrite !le_value_app, firstn_length, E3, Lx. change (Nat.min 28 32) with 28%nat. cbn [skipn] in E5. rewrite (firstn_all2 (skipn 28 x)) in F5 by (rewrite skipn_length; lia).
    change (2 ^ 256) with (256 ^ Z.of_nat 28 * 256 ^ Z.of_nat 4). change (skipn 0 x) with x in E5. change (skipn 0 y) with y in E5. set (w := 256 ^ Z.of_nat 28) in *. clearbody w. set (v := 256 ^ Z.of_nat 4) in *. clearbody v. set (a := le_value (firstn 28 x)) in *. set (b := le_value (skipn 28 x)) in *. set (d := le_value (firstn 28 y)) in *. nia. }
  rewrite V. apply le_value_inj; [exact B | apply le32_bytes | rewrite le32_length; exact L | rewrite le_value_le32 by lia; reflexivity].
Qed.
Lemma put_uint32_spec i : 0 <= i < 2 ^ 32 -> put_uint32 i = le4 i.
Proof.
  intros I. unfold put_uint32, le4, u8. rewrite !Z.shiftr_div_pow2 by lia. reflexivity.
Qed.
Lemma le4_bytes i : bytes_ok (le4 i).
Proof. repeat constructor; apply Z.mod_pos_bound; lia. Qed.
Lemma le4_value i : 0 <= i < 2 ^ 32 -> le_value (le4 i) = i.
Proof.
  intros I. unfold le4. cbn [le_value]. rewrite (Z.mod_small (i / 16777216)) by (split; [apply Z.div_pos; lia | apply Z.div_lt_upper_bound; lia]).
  change 16777216 with (65536 * 256). change 65536 with (256 * 256). rewrite <- !Z.div_div by lia. pose proof (Z.div_mod i 256 ltac:(lia)). pose proof (Z.div_mod (i / 256) 256 ltac:(lia)). pose proof (Z.div_mod (i / 256 / 256) 256 ltac:(lia)). lia.
Qed.
Lemma le4_inj i j : 0 <= i < 2 ^ 32 -> 0 <= j < 2 ^ 32 -> le4 i = le4 j -> i = j.
Proof. intros I J E. rewrite <- (le4_value i I), <- (le4_value j J), E. reflexivity. Qed.

(** ** Keys *)
Definition key96 (k : bytes) : Prop := bytes_ok k /\ length k = 96%nat.
Lemma kL_ok k : key96 k -> bytes_ok (kL k) /\ length (kL k) = 32%nat.
Proof. intros [B L]. split; [apply Forall_firstn'; exact B | unfold kL; rewrite firstn_length; lia]. Qed.
Lemma kR_ok k : key96 k -> bytes_ok (kR k) /\ length (kR k) = 32%nat.
Proof. intros [B L]. split; [apply Forall_firstn', Forall_skipn'; exact B | unfold kR; rewrite firstn_length, skipn_length; lia]. Qed.
Lemma chain_ok k : key96 k -> bytes_ok (chain k) /\ length (chain k) = 32%nat.
Proof. intros [B L]. split; [apply Forall_skipn'; exact B | unfold chain; rewrite skipn_length; lia]. Qed.
Lemma MakePublicKey_eq k : (32 <= length k)%nat -> MakePublicKey k = Ok (Ext_ToBytes (GeScalarMultBase (firstn 32 k))).
Proof. intros L. unfold MakePublicKey. rewrite slice_0 by exact L. cbn [bind]. rewrite copy_all; [reflexivity | reflexivity | rewrite firstn_length; unfold PublicKeyLen; lia]. Qed.
Definition pk_of (k : bytes) : bytes := Ext_ToBytes (GeScalarMultBase (kL k)).
Lemma pk_of_gen k : key96 k -> pk_of k = public_of (effective (le_value (kL k))).
Proof. intros K. destruct (kL_ok k K) as [B L]. unfold pk_of, public_of. apply Ext_ToBytes_spec. apply GeScalarMultBase_gen; assumption. Qed.
Lemma encode_bytes P : bytes_ok (encode_point P) /\ length (encode_point P) = 32%nat.
Proof. split; [apply le32_bytes | apply le32_length]. Qed.
Lemma pk_of_ok k : key96 k -> bytes_ok (pk_of k) /\ length (pk_of k) = 32%nat.
Proof. intros K. rewrite (pk_of_gen k K). apply encode_bytes. Qed.
Lemma pk_of_exact k : key96 k -> le_value (kL k) <= digit_limit -> pk_of k = public_of (le_value (kL k)).
Proof. intros K L. rewrite (pk_of_gen k K), effective_small; [reflexivity |]. split; [apply le_value_range; exact (proj1 (kL_ok k K)) | exact L]. Qed.
Lemma firstn32_64 (k : bytes) : firstn 32 (firstn 64 k) = firstn 32 k. Proof. rewrite firstn_firstn. reflexivity. Qed.
Lemma publicKey_eq k : key96 k -> publicKey k = Ok (pk_of k).
Proof. intros [B L]. unfold publicKey, extendedPrivateKey. rewrite slice_0 by lia. cbn [bind]. rewrite MakePublicKey_eq by (rewrite firstn_length; lia). rewrite firstn32_64. reflexivity. Qed.
Lemma chain_eq k : key96 k -> XPrv_ChainCode k = Ok (chain k).
Proof. intros [B L]. apply slice_end. lia. Qed.
Lemma Public_eq k : key96 k -> Public k = Ok (pk_of k ++ chain k).
Proof. intros K. unfold Public. rewrite (publicKey_eq k K). cbn [bind]. rewrite (chain_eq k K). reflexivity. Qed.
Lemma messages_eq k i : key96 k -> 0 <= i < 2 ^ 32 -> derive_messages k i = Ok (message_Z (pk_of k) k i, message_c (pk_of k) k i).
Proof.
  intros K I. pose proof K as [B L]. unfold derive_messages, extendedPrivateKey, message_Z, message_c, isHardened, hardened. rewrite (put_uint32_spec i I). change 2147483648 with (2 ^ 31). rewrite slice_0 by lia. cbn [bind].
  destruct (2 ^ 31 <=? i); [reflexivity |]. rewrite MakePublicKey_eq by (rewrite firstn_length; lia). rewrite firstn32_64. reflexivity.
Qed.
Lemma message_ok pk k i : bytes_ok pk -> bytes_ok k -> bytes_ok (message_Z pk k i) /\ bytes_ok (message_c pk k i).
Proof.
  intros P K. unfold message_Z, message_c. assert (F : bytes_ok (firstn 64 k)) by (apply Forall_firstn'; exact K). pose proof (le4_bytes i) as W.
  destruct (hardened i); split; (constructor; [unfold is_byte; lia | apply bytes_cat; assumption]).
Qed.
Section Keys.
Context {H : Hashes}.
Lemma hmac_len k m : hashes_ok -> bytes_ok (hmac_sha512 k m) /\ length (hmac_sha512 k m) = 64%nat.
Proof. intros (_ & _ & A & _). apply A. Qed.
Theorem Derive_spec k i : hashes_ok -> key96 k -> 0 <= i < 2 ^ 32 -> Derive k i = Ok (derive hmac_sha512 (pk_of k) k i).
Proof.
  intros HO K I. unfold Derive, derive. rewrite (chain_eq k K). cbn [bind]. rewrite (messages_eq k i K I). cbn [bind].
  destruct (pk_of_ok k K) as [PB _]. destruct (message_ok (pk_of k) k i PB (proj1 K)) as [MZ MC]. destruct (chain_ok k K) as [CB _].
  destruct (hmac_len (chain k) (message_Z (pk_of k) k i) HO) as [ZB ZL]. destruct (hmac_len (chain k) (message_c (pk_of k) k i) HO) as [IB IL].
  set (z := hmac_sha512 (chain k) (message_Z (pk_of k) k i)) in *. set (c := hmac_sha512 (chain k) (message_c (pk_of k) k i)) in *. clearbody z c.
  destruct K as [B L]. rewrite !slice_0 by lia. cbn [bind]. rewrite add28mul8_spec by (try (apply Forall_firstn'; assumption); rewrite firstn_length; lia). cbn [bind]. rewrite !slice_ok by lia. cbn [bind]. change (64 - 32)%nat with 32%nat.
  rewrite add256bits_spec by (try (apply Forall_firstn', Forall_skipn'; assumption); rewrite firstn_length, skipn_length; lia). cbn [bind]. rewrite firstn_firstn. change (Nat.min 28 32) with 28%nat. rewrite (firstn_all2 (skipn 32 c)) by (rewrite skipn_length; lia). reflexivity.
Qed.
Lemma child_ok k z c : bytes_ok c -> length c = 64%nat -> key96 (child k z c).
Proof.
  intros CB CL. unfold child. split.
  - apply bytes_cat; [apply le32_bytes |]. apply bytes_cat; [apply le32_bytes | apply Forall_skipn'; exact CB].
  - rewrite !app_length, !le32_length, skipn_length. lia.
Qed.
Lemma child_kL k z c : le_value (kL (child k z c)) = (le_value (kL k) + 8 * le_value (firstn 28 z)) mod 2 ^ 256.
Proof.
  unfold child, kL at 1. set (v := (le_value (kL k) + 8 * le_value (firstn 28 z)) mod 2 ^ 256). assert (V : 0 <= v < 2 ^ 256) by (apply Z.mod_pos_bound; lia). clearbody v. rewrite firstn_app, le32_length, Nat.sub_diag, firstn_O, app_nil_r, (firstn_all2 (le32 v)) by (rewrite le32_length; lia). apply le_value_le32. exact V.
Qed.
Lemma child_chain k z c : chain (child k z c) = skipn 32 c.
Proof. unfold child, chain. rewrite app_assoc. rewrite skipn_app. rewrite skipn_all2 by (rewrite app_length, !le32_length; lia). rewrite app_length, !le32_length. reflexivity. Qed.
Lemma Derive_key k i : hashes_ok -> key96 k -> 0 <= i < 2 ^ 32 -> key96 (derive hmac_sha512 (pk_of k) k i).
Proof.
  intros HO K I. destruct (pk_of_ok k K) as [PB _]. destruct (message_ok (pk_of k) k i PB (proj1 K)) as [MZ MC]. destruct (chain_ok k K) as [CB _]. destruct (hmac_len (chain k) (message_c (pk_of k) k i) HO) as [IB IL]. apply child_ok; assumption.
Qed.
Lemma zfirst_range k m : hashes_ok -> 0 <= le_value (firstn 28 (hmac_sha512 k m)) < 2 ^ 224.
Proof.
  intros HO. destruct (hmac_len k m HO) as [ZB ZL]. pose proof (le_value_pow (firstn 28 (hmac_sha512 k m)) 28 (Forall_firstn' _ _ _ ZB) ltac:(rewrite firstn_length; lia)) as R. exact R.
Qed.
(** ** Root keys *)
Lemma byte_high b n : 0 <= b < 256 -> 8 <= n -> Z.testbit b n = false.
Proof. intros B N. destruct (Z.eq_dec b 0) as [-> | Z0]; [apply Z.testbit_0_l |]. apply Z.bits_above_log2; [lia |]. apply (Z.lt_le_trans _ 8); [|exact N]. apply Z.log2_lt_pow2; lia. Qed.
Lemma le_value_testbit l : bytes_ok l -> forall n, 0 <= n -> Z.testbit (le_value l) n = Z.testbit (nth (Z.to_nat (n / 8)) l 0) (n mod 8).
Proof.
  induction 1 as [|b l B _ IH]; intros n N.
  - cbn [le_value]. rewrite nth_overflow by (cbn; lia). rewrite !Z.testbit_0_l. reflexivity.
  - cbn [le_value]. unfold is_byte in B. destruct (Z.lt_ge_cases n 8) as [S | S].
    + rewrite (Z.div_small n 8), (Z.mod_small n 8) by lia. cbn [Z.to_nat nth]. rewrite <- (Z.mod_pow2_bits_low _ 8 n) by lia. change (2 ^ 8) with 256. rewrite (Z.mul_comm 256), Z.mod_add by lia. rewrite Z.mod_small by lia. reflexivity.
    + assert (E : Z.to_nat (n / 8) = Datatypes.S (Z.to_nat ((n - 8) / 8))). { replace (n / 8) with ((n - 8) / 8 + 1); [|rewrite <- Z.div_add by lia; f_equal; lia]. rewrite Z2Nat.inj_add; [|apply Z.div_pos; lia | lia]. lia. } rewrite E. cbn [nth].
      replace (n mod 8) with ((n - 8) mod 8) by (rewrite <- (Z.mod_add (n - 8) 1 8) by lia; f_equal; lia). rewrite <- IH by lia.
      replace n with (n - 8 + 8) at 1 by lia. rewrite <- Z.div_pow2_bits by lia. f_equal. change (2 ^ 8) with 256. rewrite (Z.mul_comm 256), Z.div_add by lia. rewrite Z.div_small by lia. reflexivity.
Qed.
Definition norm_byte (mask : Z) (v : Z) : Z := Z.lor (Z.land v mask) 64.
Definition normalize (mask : Z) (k : bytes) : bytes := Z.land (nth 0 k 0) 248 :: firstn 30 (skipn 1 k) ++ norm_byte mask (nth 31 k 0) :: skipn 32 k.
Lemma updates_eq mask k : (32 <= length k)%nat ->
  (do b <- update k 0 (fun b => Z.land b 248); do b <- update b 31 (fun b => Z.land b mask); do b <- update b 31 (fun b => Z.lor b 64); Ok b) = Ok (normalize mask k).
Proof. intros L. do 32 (destruct k as [|? k]; [cbn in L; lia |]). reflexivity. Qed.
Lemma forall_byte (f : Z -> bool) : forallb f (map Z.of_nat (seq 0 256)) = true -> forall v, 0 <= v < 256 -> f v = true.
Proof. intros F v V. rewrite forallb_forall in F. apply F. apply in_map_iff. exists (Z.to_nat v). split; [lia |]. apply in_seq. lia. Qed.
Lemma land_byte m v : 0 <= v < 256 -> 0 <= m < 256 -> 0 <= Z.land v m < 256.
Proof.
  intros V M. split; [apply Z.land_nonneg; lia |]. replace m with (m mod 2 ^ 8) by (apply Z.mod_small; lia). rewrite <- Z.land_ones, Z.land_assoc, Z.land_ones by lia. change 256 with (2 ^ 8). apply Z.mod_pos_bound. lia.
Qed.
Lemma norm_ok mask v : 0 <= v < 256 -> mask = 95 \/ mask = 31 -> 64 <= norm_byte mask v < 96.
Proof.
  intros V M. assert (Q : (64 <=? norm_byte mask v) && (norm_byte mask v <? 96) = true); [|lia]. revert v V.
  refine (forall_byte (fun v => (64 <=? norm_byte mask v) && (norm_byte mask v <? 96)) _). destruct M as [-> | ->]; vm_compute; reflexivity.
Qed.
Lemma normalize_ok mask k : bytes_ok k -> (32 <= length k)%nat -> mask = 95 \/ mask = 31 -> bytes_ok (normalize mask k) /\ length (normalize mask k) = length k.
Proof.
  intros B L M. unfold normalize. split.
  - constructor; [apply land_byte; [apply byte_nth; exact B | lia] |]. apply bytes_cat; [apply Forall_firstn', Forall_skipn'; exact B |]. constructor; [pose proof (norm_ok mask _ (byte_nth k 31 B) M); unfold is_byte; lia | apply Forall_skipn'; exact B].
  - cbn [length]. rewrite app_length, firstn_length, skipn_length. cbn [length]. rewrite skipn_length. lia.
Qed.
Lemma normalize_parts mask k : (32 <= length k)%nat ->
  firstn 32 (normalize mask k) = Z.land (nth 0 k 0) 248 :: firstn 30 (skipn 1 k) ++ [norm_byte mask (nth 31 k 0)] /\ skipn 32 (normalize mask k) = skipn 32 k.
Proof. intros L. do 32 (destruct k as [|? k]; [cbn in L; lia |]). split; reflexivity. Qed.
Definition forced (n : Z) : option bool := if (n <=? 2) || (n =? 253) || (n =? 255) then Some false else if n =? 254 then Some true else None.
Lemma normalize_bits mask k : bytes_ok k -> (32 <= length k)%nat -> mask = 95 \/ mask = 31 -> forall n, 0 <= n < 256 ->
  Z.testbit (le_value (firstn 32 (normalize mask k))) n = match forced n with Some b => b | None => Z.testbit (le_value (firstn 32 k)) n end.
Proof.
  intros B L M n N. destruct (normalize_ok mask k B L M) as [NB NL]. rewrite !le_value_testbit by (try (apply Forall_firstn'; assumption); lia).
  destruct (normalize_parts mask k L) as [E _]. rewrite E. clear E NB NL. assert (D : 0 <= n / 8 < 32) by (split; [apply Z.div_pos; lia | apply Z.div_lt_upper_bound; lia]). pose proof (Z.mod_pos_bound n 8 ltac:(lia)) as R. pose proof (Z.div_mod n 8 ltac:(lia)) as DM.
  assert (NB : forall j, (j < 32)%nat -> nth j (firstn 32 k) 0 = nth j k 0). { intros j J. rewrite <- (firstn_skipn 32 k) at 2. rewrite app_nth1; [reflexivity | rewrite firstn_length; lia]. }
  rewrite NB by lia. clear NB. set (q := n / 8) in *. set (r := n mod 8) in *. clearbody q r.
  destruct (Z.eq_dec q 0) as [-> | Q0]; [|destruct (Z.eq_dec q 31) as [-> | Q31]].
  - cbn [Z.to_nat nth]. set (v := nth 0 k 0). clearbody v. rewrite Z.land_spec. assert (C : r = 0 \/ r = 1 \/ r = 2 \/ r = 3 \/ r = 4 \/ r = 5 \/ r = 6 \/ r = 7) by lia. subst n.
    repeat (destruct C as [-> | C]); [.. | subst r]; cbn [Z.mul Z.add Pos.add Pos.mul]; try (rewrite Bool.andb_false_r; reflexivity); rewrite Bool.andb_true_r; reflexivity.
  - change (Z.to_nat 31) with 31%nat. assert (L30 : length (firstn 30 (skipn 1 k)) = 30%nat) by (rewrite firstn_length, skipn_length; lia). cbn [nth]. rewrite app_nth2 by lia. rewrite L30. change (30 - 30)%nat with 0%nat. cbn [nth]. set (v := nth 31 k 0). clearbody v. unfold norm_byte. rewrite Z.lor_spec, Z.land_spec.
    assert (C : r = 0 \/ r = 1 \/ r = 2 \/ r = 3 \/ r = 4 \/ r = 5 \/ r = 6 \/ r = 7) by lia. subst n. destruct M as [-> | ->];
    (repeat (destruct C as [-> | C]); [.. | subst r]; cbn [Z.mul Z.add Pos.add Pos.mul]; destruct (Z.testbit v _); reflexivity).
  - assert (F : forced n = None). { unfold forced. assert (n <=? 2 = false) by (apply Z.leb_gt; lia). assert (n =? 253 = false) by (apply Z.eqb_neq; lia). assert (n =? 255 = false) by (apply Z.eqb_neq; lia). assert (n =? 254 = false) by (apply Z.eqb_neq; lia). rewrite H0, H1, H2, H3. reflexivity. }
    rewrite F. f_equal. assert (J : exists j, Z.to_nat q = S j /\ (j < 30)%nat) by (exists (Z.to_nat (q - 1)); lia). destruct J as (j & -> & J). cbn [nth]. rewrite app_nth1 by (rewrite firstn_length, skipn_length; lia).
    clear - J L. destruct k as [|x k]; [cbn in L; lia |]. cbn [skipn nth]. rewrite <- (firstn_skipn 30 k) at 2. rewrite app_nth1; [reflexivity |]. cbn in L. rewrite firstn_length. lia.
Qed.
Lemma forced_clamped (n : Z) (f : Z -> bool) : (forall i, 0 <= i < 256 -> Z.testbit n i = match forced i with Some b => b | None => f i end) -> clamped n.
Proof.
  intros E. split; [|split; [|split]].
  - intros i I. rewrite E by lia. unfold forced. replace (i <=? 2) with true by (symmetry; apply Z.leb_le; lia). reflexivity.
  - rewrite E by lia. reflexivity. - rewrite E by lia. reflexivity. - rewrite E by lia. reflexivity.
Qed.
Lemma clamped_range n : 0 <= n < 2 ^ 256 -> clamped n -> n mod 8 = 0 /\ 2 ^ 254 <= n < 2 ^ 254 + 2 ^ 253.
Proof.
  intros R (L & A & B & C). split.
  - pose proof (L 0 ltac:(lia)) as L0. pose proof (L 1 ltac:(lia)) as L1. pose proof (L 2 ltac:(lia)) as L2.
    assert (E : forall i, 0 <= i < 3 -> Z.testbit (n mod 8) i = Z.testbit n i) by (intros i I; change 8 with (2 ^ 3); apply Z.mod_pow2_bits_low; lia).
    rewrite <- E in L0, L1, L2 by lia. pose proof (Z.mod_pos_bound n 8 ltac:(lia)) as M. set (m := n mod 8) in *. clearbody m.
    assert (Cs : m = 0 \/ m = 1 \/ m = 2 \/ m = 3 \/ m = 4 \/ m = 5 \/ m = 6 \/ m = 7) by lia. clear - Cs L0 L1 L2. repeat (destruct Cs as [-> | Cs]); [reflexivity | discriminate .. |]. subst m. discriminate.
  - assert (E : forall i, 0 <= i -> Z.testbit (n / 2 ^ 253) i = Z.testbit n (i + 253)) by (intros i I; apply Z.div_pow2_bits; lia).
    change 255 with (2 + 253) in A. change 254 with (1 + 253) in B. change 253 with (0 + 253) in C. rewrite <- E in A, B, C by lia.
    assert (Q : 0 <= n / 2 ^ 253 < 8) by (split; [apply Z.div_pos; lia | apply Z.div_lt_upper_bound; lia]). pose proof (Z.div_mod n (2 ^ 253) ltac:(lia)) as D. pose proof (Z.mod_pos_bound n (2 ^ 253) ltac:(lia)) as M. clear E. set (m := n / 2 ^ 253) in *. clearbody m.
    assert (Cs : m = 0 \/ m = 1 \/ m = 2 \/ m = 3 \/ m = 4 \/ m = 5 \/ m = 6 \/ m = 7) by lia. assert (m = 2); [|subst m; lia]. clear - Cs A B C. repeat (destruct Cs as [-> | Cs]); try discriminate; [reflexivity |]. subst m. discriminate.
Qed.
Lemma NewXPrv_eq seed : hashes_ok -> length seed = 32%nat -> NewXPrv seed = Ok (normalize 95 (sha512 seed) ++ sha256 (1 :: seed)).
Proof.
  intros (_ & HS & _) L. destruct (HS seed) as [_ HL]. unfold NewXPrv. rewrite L. change (negb (32 =? 32)%nat) with false. cbv iota zeta.
  pose proof (updates_eq 95 (sha512 seed) ltac:(lia)) as U. destruct (update (sha512 seed) 0 _) as [b | |]; cbn [bind] in *; try discriminate. destruct (update b 31 _) as [b' | |]; cbn [bind] in *; try discriminate.
  destruct (update b' 31 _) as [b'' | |]; cbn [bind] in *; try discriminate. injection U as ->. reflexivity.
Qed.
Lemma FromBip39_eq entropy password : hashes_ok -> FromBip39Entropy entropy password = Ok (normalize 31 (pbkdf2_sha512 password entropy 4096 96)).
Proof. intros (_ & _ & _ & HP & _). destruct (HP password entropy 4096 96%nat) as [_ HL]. unfold FromBip39Entropy, NormalizeBytesForce3rd, XPrv_Size. rewrite (updates_eq 31) by lia. reflexivity. Qed.

(** ** Signatures *)
Lemma Ok_inj {A} (a b : A) : Ok a = Ok b -> a = b. Proof. intros E. injection E. auto. Qed.
Lemma ell_range : 0 < ell < 2 ^ 253. Proof. unfold ell. lia. Qed.
Lemma Sign_eq k m : hashes_ok -> key96 k ->
  let r := ScReduce (sha512 (kR k ++ m)) in
  let R := Ext_ToBytes (GeScalarMultBase r) in
  let h := ScReduce (sha512 ((R ++ pk_of k) ++ m)) in
  length R = 32%nat -> length (pk_of k) = 32%nat -> length (ScMulAdd h (kL k) r) = 32%nat -> Sign k m = Ok (R ++ ScMulAdd h (kL k) r).
Proof.
  intros (_ & HS & _) [B L] r R h LR LP LS. unfold Sign. rewrite MakePublicKey_eq by lia. cbn [bind]. fold (kL k). fold (pk_of k). rewrite slice_ok by lia. cbn [bind]. change (64 - 32)%nat with 32%nat. fold (kR k).
  rewrite slice_0 by (rewrite (proj2 (HS _)); lia). cbn [bind]. rewrite (firstn_all2 (sha512 (kR k ++ m))) by (rewrite (proj2 (HS _)); lia). rewrite (copy_all (repeat 0 64) (sha512 (kR k ++ m)) 64) by (try apply (proj2 (HS _)); reflexivity). fold r. fold R. cbv zeta.
  change (copy_at (repeat 0 SignatureLength) 0 64 (getFilledArray SignatureLength 0)) with (repeat 0 64).
  rewrite (copy_head (repeat 0 64) R 32) by (try exact LR; rewrite repeat_length; lia). rewrite (copy_tail (R ++ skipn 32 (repeat 0 64)) (pk_of k) 32 64) by (try exact LP; rewrite ?app_length, ?skipn_length, ?repeat_length; lia).
  replace (firstn 32 (R ++ skipn 32 (repeat 0 64))) with R by (rewrite firstn_app, LR, Nat.sub_diag, firstn_O, app_nil_r, firstn_all2 by lia; reflexivity).
  rewrite (copy_all (repeat 0 64) (sha512 ((R ++ pk_of k) ++ m)) 64) by (try apply (proj2 (HS _)); reflexivity). fold h. rewrite slice_0 by lia. cbn [bind]. fold (kL k).
  rewrite (copy_all (repeat 0 32) (kL k) 32) by (try reflexivity; unfold kL; rewrite firstn_length; lia).
  rewrite (copy_tail (R ++ pk_of k) (ScMulAdd h (kL k) r) 32 64) by (try exact LS; rewrite ?app_length; lia).
  replace (firstn 32 (R ++ pk_of k)) with R by (rewrite firstn_app, LR, Nat.sub_diag, firstn_O, app_nil_r, firstn_all2 by lia; reflexivity). reflexivity.
Qed.
Theorem Sign_spec k m : hashes_ok -> key96 k ->
  let r := le_value (sha512 (kR k ++ m)) mod ell in
  let R := public_of r in
  let h := le_value (sha512 (R ++ pk_of k ++ m)) mod ell in
  Sign k m = Ok (R ++ le32 ((h * le_value (kL k) + r) mod ell)).
Proof.
  intros HO K r R h. pose proof HO as (_ & HS & _). pose proof ell_range as ER.
  assert (E1 : ScReduce (sha512 (kR k ++ m)) = le32 r) by (destruct (HS (kR k ++ m)) as [SB SL]; exact (ScReduce_spec _ SB SL)).
  assert (RR : 0 <= r < ell) by (apply Z.mod_pos_bound; lia). assert (VR : le_value (le32 r) = r) by (apply le_value_le32; lia).
  assert (E2 : Ext_ToBytes (GeScalarMultBase (le32 r)) = R). { pose proof limit_255 as LI. assert (G : repr_ext (GeScalarMultBase (le32 r)) (zmul (le_value (le32 r)) base_point)) by (apply GeScalarMultBase_limit; [apply le32_bytes | apply le32_length | rewrite VR; lia]). rewrite VR in G. exact (Ext_ToBytes_spec _ _ G). }
  assert (LR : length R = 32%nat) by apply encode_bytes. destruct (pk_of_ok k K) as [PB PL]. destruct (kL_ok k K) as [LB LL].
  pose proof (Sign_eq k m HO K) as E. cbv zeta in E. rewrite E1, E2 in E. rewrite <- app_assoc in E.
  assert (E3 : ScReduce (sha512 (R ++ pk_of k ++ m)) = le32 h) by (destruct (HS (R ++ pk_of k ++ m)) as [SB SL]; exact (ScReduce_spec _ SB SL)). rewrite E3 in E.
  assert (RH : 0 <= h < ell) by (apply Z.mod_pos_bound; lia). assert (VH : le_value (le32 h) = h) by (apply le_value_le32; lia).
  assert (E4 : ScMulAdd (le32 h) (kL k) (le32 r) = le32 ((h * le_value (kL k) + r) mod ell)). { rewrite (ScMulAdd_spec (le32 h) (kL k) (le32 r)) by (try apply le32_bytes; try apply le32_length; assumption). rewrite VH, VR. reflexivity. }
  rewrite E4 in E. apply E; [exact LR | exact PL | apply le32_length].
Qed.
Theorem Sign_verifies k m sig : hashes_ok -> key96 k -> le_value (kL k) <= digit_limit -> Sign k m = Ok sig -> verifies sha512 (pk_of k) m sig.
Proof.
  intros HO K LK E. pose proof (Sign_spec k m HO K) as S. cbv zeta in S. rewrite S in E. apply Ok_inj in E. subst sig. clear S. pose proof ell_range as ER.
  set (r := le_value (sha512 (kR k ++ m)) mod ell). set (H0 := sha512 (public_of r ++ pk_of k ++ m)). set (a := le_value (kL k)) in *. set (s := (le_value H0 mod ell * a + r) mod ell).
  assert (LR : length (public_of r) = 32%nat) by apply encode_bytes. assert (RS : 0 <= s < ell) by (apply Z.mod_pos_bound; lia).
  assert (F : firstn 32 (public_of r ++ le32 s) = public_of r) by (rewrite firstn_app, LR, Nat.sub_diag, firstn_O, app_nil_r, firstn_all2 by lia; reflexivity).
  assert (T : skipn 32 (public_of r ++ le32 s) = le32 s) by (rewrite skipn_app, LR, Nat.sub_diag, skipn_all2 by lia; reflexivity).
  exists (zmul a base_point), (zmul r base_point). rewrite F, T. rewrite le_value_le32 by lia. split; [apply zmul_on; exact base_on |]. split; [symmetry; exact (pk_of_exact k K LK) |]. split; [apply zmul_on; exact base_on |]. split; [reflexivity |].
  split; [rewrite app_length, LR, le32_length; reflexivity |]. split; [lia |]. fold H0. unfold s. rewrite zmul_mod by (try exact base_on; try exact ell_base; lia). rewrite zmul_add by exact base_on. rewrite padd_comm. f_equal.
  rewrite zmul_mul by exact base_on. apply zmul_mod; [apply zmul_on; exact base_on | | lia]. rewrite <- zmul_mul by exact base_on. rewrite Z.mul_comm, zmul_mul by exact base_on. rewrite ell_base. rewrite <- (zmul_0 base_point), <- zmul_mul by exact base_on. rewrite Z.mul_0_r. reflexivity.
Qed.
End Keys.
