(** C110: what the private key of a child gives away about its parent. *)
From Verif.Model Require Import Base Limb EdwardsTable EdwardsCode Edwards Network Address Tx Builder Bip32 Keys.
From Verif.Spec Require Import CborSpec TxSpec EdSpec Bip32Spec WindowSpec.
From Verif.Proofs Require Import Util RadixFacts ScalarFacts FieldFacts CurveFacts GroupFacts FieldEl FieldBytes PointFacts TableFacts ScalarMult TxFacts HeapFacts HeapProps PrimeOrder Bip32Facts KeyFacts.
From Verif.Props Require Import Tx Edwards Builder Bip32 ScalarExact.
Open Scope Z_scope.
#[local] Opaque zmul.

Lemma skip64 (l : bytes) : skipn 32 (skipn 32 l) = skipn 64 l.
Proof. change 64%nat with (32 + 32)%nat. generalize 32%nat at 2 4 as m. intros m. revert l. induction m as [| m IH]; intros l; [rewrite Nat.add_0_r; reflexivity |]. rewrite Nat.add_succ_r. destruct l as [| x l]; [rewrite !skipn_nil; reflexivity |]. cbn [skipn]. apply IH. Qed.
Lemma key_parts k : k = kL k ++ kR k ++ chain k.
Proof. unfold kL, kR, chain. rewrite <- skip64, !firstn_skipn. reflexivity. Qed.
Lemma add_sub_mod a b m : 0 <= a < m -> ((a + b) mod m - b) mod m = a.
Proof. intros A. rewrite Zminus_mod_idemp_l. replace (a + b - b) with a by lia. apply Z.mod_small. exact A. Qed.

(** The full statement, refuted: from the parent's extended public key and the private key of one soft child the whole private key of the parent
    follows, for every key, every index below 2^31 and every hash function. *)
Theorem C110_refuted : forall (H : Hashes) k i, hashes_ok -> bytes_len 96 k -> 0 <= i < 2 ^ 31 -> exists xpub child,
  Public k = Ok xpub /\ Derive k i = Ok child /\ undo hmac_sha512 xpub child i = k.
Proof.
  intros H k i HO K I. exists (pk_of k ++ chain k). eexists. split; [apply Public_eq; exact K |]. split; [apply Derive_spec; [exact HO | exact K | lia] |].
  destruct (pk_of_ok k K) as [_ LP]. pose proof (C38_parts H k i _ HO K ltac:(lia) (Derive_spec k i HO K ltac:(lia))) as (pk & P & _ & EL & ER & _). rewrite (publicKey_eq k K) in P. apply Ok_inj in P. subst pk.
  set (child := derive _ _ _ _) in *. clearbody child. unfold undo. cbv zeta. replace (skipn 32 (pk_of k ++ chain k)) with (chain k) by (rewrite skipn_app, skipn_all2, LP by lia; reflexivity).
  replace (firstn 32 (pk_of k ++ chain k)) with (pk_of k) by (rewrite firstn_app, firstn_all2, LP by lia; cbn [Nat.sub firstn]; symmetry; apply app_nil_r).
  assert (M : message_Z (pk_of k) k i = 2 :: pk_of k ++ le4 i). { unfold message_Z, hardened. destruct (Z.leb_spec (2 ^ 31) i); [lia | reflexivity]. }
  cbv zeta in EL, ER. rewrite M in EL, ER. generalize dependent (hmac_sha512 (chain k) (2 :: pk_of k ++ le4 i)). intros z EL ER. rewrite EL, ER. clear EL ER M.
  destruct (kL_ok k K) as [B1 L1], (kR_ok k K) as [B2 L2]. pose proof (le_value_pow _ 32 B1 L1) as R1. pose proof (le_value_pow _ 32 B2 L2) as R2. change (256 ^ Z.of_nat 32) with (2 ^ 256) in R1, R2.
  rewrite !add_sub_mod by assumption. rewrite (le32_le_value _ B1 L1), (le32_le_value _ B2 L2). symmetry. apply key_parts.
Qed.
Print Assumptions C110_refuted.

(** Soft descendants: a path is the extended public keys met from the ancestor down and the indices taken. *)
Inductive soft_path {H : Hashes} : bytes -> list (bytes * Z) -> bytes -> Prop :=
| soft_here k : soft_path k [] k
| soft_down k xpub i k' path k'' : Public k = Ok xpub -> 0 <= i < 2 ^ 31 -> Derive k i = Ok k' -> soft_path k' path k'' -> soft_path k ((xpub, i) :: path) k''.
(** One payment key with the extended public keys above it gives the account key (two soft levels), and with it every sibling, hardened ones too. *)
Theorem C110_path : forall (H : Hashes) path k k', hashes_ok -> bytes_len 96 k -> soft_path k path k' ->
  undo_path hmac_sha512 path k' = k /\ forall i, Derive (undo_path hmac_sha512 path k') i = Derive k i.
Proof.
  intros H path k k' HO K S. assert (E : undo_path hmac_sha512 path k' = k); [|rewrite E; split; reflexivity]. revert K. induction S as [k | k xpub i k1 path k2 P I D S IH]; intros K; [reflexivity |]. cbn [undo_path].
  destruct (C110_refuted H k i HO K I) as (x & c & P' & D' & U). rewrite P in P'. rewrite D in D'. apply Ok_inj in P', D'. subst x c.
  rewrite IH; [exact U |]. rewrite (Derive_spec k i HO K ltac:(lia)) in D. apply Ok_inj in D. subst k1. apply Derive_key; [exact HO | exact K | lia].
Qed.
Print Assumptions C110_path.

(** What does hold: hardened indices. No function of the extended public key, the index and the child's private key gives the parent for every
    choice of hash functions: for these ones two keys have the same extended public key and the same hardened children. *)
Definition blind_hmac (k m : bytes) : bytes := repeat 0 32 ++ match m with 0 :: rest => le32 ((- le_value (firstn 32 (skipn 32 rest))) mod 2 ^ 256) | _ => repeat 0 32 end.
Definition blind_hashes : Hashes := {| sha256 := toy 32 1; sha512 := toy 64 2; hmac_sha512 := blind_hmac; pbkdf2_sha512 := fun p s i n => toy n i (p ++ s); blake2b_224 := toy 28 4; blake2b_256 := toy 32 5 |}.
Lemma zeros_ok n : bytes_ok (repeat 0 n).
Proof. apply Forall_forall. intros x X. apply repeat_spec in X. subst x. unfold is_byte. lia. Qed.
Lemma blind_ok : @hashes_ok blind_hashes.
Proof.
  split; [intros; apply toy_ok |]. split; [intros; apply toy_ok |]. split; [| split; [intros; apply toy_ok | split; intros; apply toy_ok]].
  intros k m. cbn [hmac_sha512 blind_hashes]. unfold blind_hmac. assert (Q : forall l, bytes_ok l -> length l = 32%nat -> bytes_ok (repeat 0 32 ++ l) /\ length (repeat 0 32 ++ l) = 64%nat).
  { intros l B L. split; [apply Forall_app; split; [apply zeros_ok | exact B] | rewrite app_length, L, repeat_length; reflexivity]. }
  destruct m as [| [| p | p] rest]; apply Q; try apply zeros_ok; try apply repeat_length; [apply le32_bytes | apply le32_length].
Qed.
Definition blind_key (b : Z) : bytes := 8 :: repeat 0 31 ++ b :: repeat 0 63.
Lemma blind_key_ok b : 0 <= b < 256 -> bytes_len 96 (blind_key b).
Proof. intros B. split; [|reflexivity]. unfold blind_key. apply Forall_cons; [unfold is_byte; lia |]. apply Forall_app. split; [apply zeros_ok |]. apply Forall_cons; [exact B | apply zeros_ok]. Qed.
Theorem C110_hardened : @hashes_ok blind_hashes /\ exists k k', bytes_len 96 k /\ bytes_len 96 k' /\ k <> k' /\
  (exists xpub, Public k = Ok xpub /\ Public k' = Ok xpub) /\ forall i, 2 ^ 31 <= i < 2 ^ 32 -> exists child, @Derive blind_hashes k i = Ok child /\ @Derive blind_hashes k' i = Ok child.
Proof.
  split; [exact blind_ok |]. exists (blind_key 1), (blind_key 2). pose proof (blind_key_ok 1 ltac:(lia)) as K1. pose proof (blind_key_ok 2 ltac:(lia)) as K2. split; [exact K1 |]. split; [exact K2 |]. split; [discriminate |].
  assert (P : pk_of (blind_key 2) = pk_of (blind_key 1)) by (unfold pk_of; f_equal). split.
  - exists (pk_of (blind_key 1) ++ chain (blind_key 1)). split; [apply Public_eq; exact K1 |]. rewrite (Public_eq _ K2), P. reflexivity.
  - intros i I. eexists. split; [apply (@Derive_spec blind_hashes); [exact blind_ok | exact K1 | lia] |]. rewrite (@Derive_spec blind_hashes) by (try exact blind_ok; try exact K2; lia). rewrite P. f_equal. generalize (pk_of (blind_key 1)). intros pk.
    unfold derive, message_Z, message_c, hardened. destruct (Z.leb_spec (2 ^ 31) i); [|lia]. unfold child. cbn [hmac_sha512 blind_hashes]. unfold blind_hmac. generalize (le4 i). intros l.
    assert (R : forall b, firstn 32 (skipn 32 (firstn 64 (blind_key b) ++ l)) = b :: repeat 0 31) by reflexivity. rewrite !R.
    assert (Z : forall b, firstn 32 (skipn 32 (repeat 0 32 ++ le32 ((- le_value (b :: repeat 0 31)) mod 2 ^ 256))) = le32 ((- le_value (b :: repeat 0 31)) mod 2 ^ 256)).
    { intros b. set (x := le32 _). assert (LX : length x = 32%nat) by apply le32_length. clearbody x. rewrite skipn_app, skipn_all2 by (rewrite repeat_length; lia). rewrite repeat_length. cbn [Nat.sub skipn app]. apply firstn_all2. lia. }
    rewrite !Z. reflexivity.
Qed.
Print Assumptions C110_hardened.
(** So no such function exists. *)
Theorem C110_hardened_none : forall f : bytes -> bytes -> Z -> bytes, exists k i xpub child, bytes_len 96 k /\ 2 ^ 31 <= i < 2 ^ 32 /\ Public k = Ok xpub /\ @Derive blind_hashes k i = Ok child /\ f xpub child i <> k.
Proof.
  intros f. destruct C110_hardened as (_ & k & k' & K & K' & N & (x & P & P') & D). destruct (D (2 ^ 31) ltac:(lia)) as (c & D1 & D2). destruct (list_eq_dec Z.eq_dec (f x c (2 ^ 31)) k) as [E | E].
  - exists k', (2 ^ 31), x, c. split; [exact K' |]. split; [lia |]. split; [exact P' |]. split; [exact D2 |]. rewrite E. exact N.
  - exists k, (2 ^ 31), x, c. split; [exact K |]. split; [lia |]. split; [exact P |]. split; [exact D1 | exact E].
Qed.
Print Assumptions C110_hardened_none.
(** A key and an index that meet the hypotheses of C110_refuted, with a child different from the key; the path m/0/1 for C110_path *)
Example C110_example : @hashes_ok toy_hashes /\ bytes_len 96 (blind_key 3) /\ exists xpub i k1 k2, @soft_path toy_hashes (blind_key 3) ((xpub, 0) :: i :: nil) k2 /\ @Derive toy_hashes (blind_key 3) 0 = Ok k1 /\ snd i = 1.
Proof.
  pose proof (blind_key_ok 3 ltac:(lia)) as K. split; [exact toy_hashes_ok |]. split; [exact K |].
  destruct (C110_refuted toy_hashes (blind_key 3) 0 toy_hashes_ok K ltac:(lia)) as (x & c & P & D & _).
  assert (KC : bytes_len 96 c). { rewrite (@Derive_spec toy_hashes _ 0 toy_hashes_ok K ltac:(lia)) in D. apply Ok_inj in D. subst c. apply Derive_key; [exact toy_hashes_ok | exact K | lia]. }
  destruct (C110_refuted toy_hashes c 1 toy_hashes_ok KC ltac:(lia)) as (x' & c' & P' & D' & _).
  exists x, (x', 1), c, c'. split; [|split; [exact D | reflexivity]]. eapply soft_down; [exact P | lia | exact D |]. eapply soft_down; [exact P' | lia | exact D' |]. apply soft_here.
Qed.
