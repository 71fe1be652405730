(** Theorems about package bip32: root keys, derivation, public keys, signatures (C37-C41, C50, C51) and signed transactions (C69).
    [hashes_ok] says that the hash functions return byte strings of their declared length. *)
From Verif.Model Require Import Base Edwards Network Address Tx Builder Bip32 Keys.
From Verif.Spec Require Import EdSpec CborSpec TxSpec MdSpec Bip32Spec.
From Verif.Proofs Require Import Util RadixFacts ScalarFacts FieldFacts CurveFacts GroupFacts TableFacts ScalarMult TxFacts HeapFacts HeapProps FeeFacts PrimeOrder Bip32Facts KeyFacts.
From Verif.Props Require Import Tx Edwards Builder.
Open Scope Z_scope.
#[local] Opaque zmul.

Definition bytes_len (n : nat) (l : bytes) : Prop := bytes_ok l /\ length l = n.
(** Toy hash functions for the examples: sums of the input, spread over the output. *)
Definition toy (n : nat) (seed : Z) (m : bytes) : bytes := map (fun i => (seed + Z.of_nat i * Z.of_nat i * 7 + fold_left (fun a x => a * 31 + x) m (Z.of_nat (length m))) mod 256) (seq 0 n).
Definition toy_hashes : Hashes := {| sha256 := toy 32 1; sha512 := toy 64 2; hmac_sha512 := fun k m => toy 64 3 (k ++ m); pbkdf2_sha512 := fun p s i n => toy n i (p ++ s); blake2b_224 := toy 28 4; blake2b_256 := toy 32 5 |}.
Lemma toy_ok n seed m : bytes_ok (toy n seed m) /\ length (toy n seed m) = n.
Proof. unfold toy. split; [|rewrite map_length; apply seq_length]. apply Forall_forall. intros x I. apply in_map_iff in I. destruct I as (i & <- & _). apply Z.mod_pos_bound. lia. Qed.
Lemma toy_hashes_ok : @hashes_ok toy_hashes. Proof. repeat split; intros; apply toy_ok. Qed.

(** ** C37: root keys *)
(** The bits of the scalar half are those of the hash, except the forced ones. *)
Definition same_but_forced (n m : Z) : Prop := forall i, 0 <= i < 256 -> ~ (i <= 2 \/ 253 <= i) -> Z.testbit n i = Z.testbit m i.
Theorem C37_NewXPrv : forall (H : Hashes) seed, hashes_ok -> length seed = 32%nat -> exists k, NewXPrv seed = Ok k /\ bytes_len 96 k /\
  clamped (le_value (kL k)) /\ same_but_forced (le_value (kL k)) (le_value (firstn 32 (sha512 seed))) /\
  kR k = skipn 32 (sha512 seed) /\ chain k = sha256 (1 :: seed).
Proof.
  intros H seed HO L. exists (normalize 95 (sha512 seed) ++ sha256 (1 :: seed)). split; [apply NewXPrv_eq; assumption |]. destruct HO as (H1 & H2 & _). destruct (H2 seed) as [B64 L64]. destruct (H1 (1 :: seed)) as [B32 L32].
  destruct (normalize_ok 95 _ B64 ltac:(lia) (or_introl eq_refl)) as [NB NL]. destruct (normalize_parts 95 (sha512 seed) ltac:(lia)) as [_ P]. pose proof (normalize_bits 95 _ B64 ltac:(lia) (or_introl eq_refl)) as BI.
  set (n := normalize 95 (sha512 seed)) in *. clearbody n. assert (E : kL (n ++ sha256 (1 :: seed)) = firstn 32 n) by (unfold kL; rewrite firstn_app, NL, L64; cbn [Nat.sub firstn]; apply app_nil_r).
  assert (S32 : length (skipn 32 n) = 32%nat) by (rewrite skipn_length; lia).
  split; [split; [apply bytes_cat; assumption | rewrite app_length; lia] |]. rewrite E. split; [eapply forced_clamped; exact BI |]. split.
  - intros i I N. rewrite BI by exact I. unfold forced. replace (i <=? 2) with false by (symmetry; apply Z.leb_gt; lia). replace (i =? 253) with false by (symmetry; apply Z.eqb_neq; lia). replace (i =? 255) with false by (symmetry; apply Z.eqb_neq; lia). replace (i =? 254) with false by (symmetry; apply Z.eqb_neq; lia). reflexivity.
  - unfold kR, chain. rewrite !skipn_app, NL, L64. rewrite (skipn_all2 n (n := 64)) by lia. change (32 - 64)%nat with 0%nat. change (64 - 64)%nat with 0%nat. rewrite !skipn_O. cbn [app]. split; [|reflexivity]. rewrite <- P. rewrite firstn_app, S32, firstn_all2 by lia. cbn [Nat.sub firstn]. apply app_nil_r.
Qed.
Print Assumptions C37_NewXPrv.
Theorem C37_error : forall (H : Hashes) seed, length seed <> 32%nat -> NewXPrv seed = Err ESeedLength.
Proof. intros H seed L. unfold NewXPrv. destruct (Nat.eqb_spec (length seed) 32); [contradiction | reflexivity]. Qed.
Print Assumptions C37_error.
Theorem C37_FromBip39Entropy : forall (H : Hashes) entropy password, hashes_ok -> exists k, FromBip39Entropy entropy password = Ok k /\ bytes_len 96 k /\
  let p := pbkdf2_sha512 password entropy 4096 96 in
  clamped (le_value (kL k)) /\ same_but_forced (le_value (kL k)) (le_value (firstn 32 p)) /\ skipn 32 k = skipn 32 p.
Proof.
  intros H entropy password HO. exists (normalize 31 (pbkdf2_sha512 password entropy 4096 96)). split; [apply FromBip39_eq; assumption |]. destruct HO as (_ & _ & _ & H4 & _). destruct (H4 password entropy 4096 96%nat) as [PB PL]. cbv zeta. set (p := pbkdf2_sha512 _ _ _ _) in *. clearbody p.
  destruct (normalize_ok 31 p PB ltac:(lia) (or_intror eq_refl)) as [NB NL]. destruct (normalize_parts 31 p ltac:(lia)) as [_ P]. pose proof (normalize_bits 31 p PB ltac:(lia) (or_intror eq_refl)) as BI.
  split; [split; [exact NB | lia] |]. split; [eapply forced_clamped; exact BI |]. split; [|exact P].
  intros i I N. unfold kL. rewrite BI by exact I. unfold forced. replace (i <=? 2) with false by (symmetry; apply Z.leb_gt; lia). replace (i =? 253) with false by (symmetry; apply Z.eqb_neq; lia). replace (i =? 255) with false by (symmetry; apply Z.eqb_neq; lia). replace (i =? 254) with false by (symmetry; apply Z.eqb_neq; lia). reflexivity.
Qed.
Print Assumptions C37_FromBip39Entropy.
Example C37_example : hashes_ok (H := toy_hashes) /\ length (repeat 200 32) = 32%nat /\ exists k, @NewXPrv toy_hashes (repeat 200 32) = Ok k.
Proof. split; [exact toy_hashes_ok |]. split; [reflexivity |]. eexists. vm_compute. reflexivity. Qed.

(** ** C38: derivation arithmetic *)
(** [pk] is the public key MakePublicKey returns for the key. *)
Theorem C38_derive : forall (H : Hashes) k i, hashes_ok -> bytes_len 96 k -> 0 <= i < 2 ^ 32 -> exists pk, publicKey k = Ok pk /\ bytes_len 32 pk /\
  Derive k i = Ok (derive hmac_sha512 pk k i).
Proof. intros H k i HO K I. exists (pk_of k). split; [apply publicKey_eq; exact K |]. split; [exact (pk_of_ok k K) |]. apply Derive_spec; assumption. Qed.
Print Assumptions C38_derive.
(** The halves and the chain code of [derive], as numbers *)
Theorem C38_parts : forall (H : Hashes) k i k', hashes_ok -> bytes_len 96 k -> 0 <= i < 2 ^ 32 -> Derive k i = Ok k' -> exists pk, publicKey k = Ok pk /\
  let Z := hmac_sha512 (chain k) (message_Z pk k i) in
  bytes_len 96 k' /\
  le_value (kL k') = (le_value (kL k) + 8 * le_value (firstn 28 Z)) mod 2 ^ 256 /\
  le_value (kR k') = (le_value (kR k) + le_value (skipn 32 Z)) mod 2 ^ 256 /\
  chain k' = skipn 32 (hmac_sha512 (chain k) (message_c pk k i)).
Proof.
  intros H k i k' HO K I E. exists (pk_of k). split; [apply publicKey_eq; exact K |]. rewrite Derive_spec in E by assumption. apply Ok_inj in E. subst k'. cbv zeta. split; [apply Derive_key; assumption |].
  unfold derive. split; [apply child_kL |]. destruct (hmac_len (chain k) (message_Z (pk_of k) k i) HO) as [_ L]. split; [|apply child_chain].
  unfold kR at 1, child. set (a := le32 _). assert (length a = 32%nat) by apply le32_length. rewrite skipn_app, skipn_all2 by lia. rewrite H0. rewrite Nat.sub_diag, skipn_O. cbn [app]. clear a H0. set (b := le32 _). assert (LB : length b = 32%nat) by apply le32_length.
  rewrite firstn_app, firstn_all2 by lia. rewrite LB. cbn [Nat.sub firstn]. rewrite app_nil_r. unfold b. rewrite le_value_le32 by (apply Z.mod_pos_bound; lia). rewrite (firstn_all2 (skipn 32 _)) by (rewrite skipn_length; lia). reflexivity.
Qed.
Print Assumptions C38_parts.
(** A key shorter than 64 bytes makes Derive panic. *)
Theorem C38_short : forall (H : Hashes) k i, (length k < 64)%nat -> Derive k i = Panic.
Proof. intros H k i L. unfold Derive, XPrv_ChainCode, slice. replace ((64 <=? length k)%nat) with false by (symmetry; apply Nat.leb_gt; exact L). reflexivity. Qed.
Print Assumptions C38_short.
(** All carries propagate: the scalar 2^256 - 8 plus 8 wraps to zero. *)
Example C38_example : add28mul8 (248 :: repeat 255 31) (1 :: repeat 0 31) = Ok (repeat 0 32) /\ add256bits (repeat 255 32) (1 :: repeat 0 31) = Ok (repeat 0 32) /\ exists k, @Derive toy_hashes (repeat 255 96) (2 ^ 31) = Ok k.
Proof. split; [vm_compute; reflexivity |]. split; [vm_compute; reflexivity |]. eexists. vm_compute. reflexivity. Qed.

(** ** C39: derivation paths *)
Definition root_key {H : Hashes} (k : bytes) : Prop := (exists seed, NewXPrv seed = Ok k) \/ (exists entropy password, FromBip39Entropy entropy password = Ok k).
Inductive derived {H : Hashes} (root : bytes) : nat -> bytes -> Prop :=
| derived_root : derived root 0 root
| derived_child n k i k' : derived root n k -> 0 <= i < 2 ^ 32 -> Derive k i = Ok k' -> derived root (S n) k'.
Lemma root_grown (H : Hashes) k : hashes_ok -> root_key k -> grown 0 k.
Proof.
  intros HO [[seed E] | (e & p & E)].
  - destruct (Nat.eq_dec (length seed) 32) as [L | L]; [|rewrite C37_error in E by exact L; discriminate]. destruct (C37_NewXPrv H seed HO L) as (k' & E' & K & C & _). rewrite E in E'. apply Ok_inj in E'. subst k'. split; [exact K |].
    destruct (kL_ok k K) as [KB KL]. pose proof (le_value_pow _ 32 KB KL) as R. change (256 ^ Z.of_nat 32) with (2 ^ 256) in R. destruct (clamped_range _ R C). lia.
  - destruct (C37_FromBip39Entropy H e p HO) as (k' & E' & K & C & _). rewrite E in E'. apply Ok_inj in E'. subst k'. split; [exact K |].
    destruct (kL_ok k K) as [KB KL]. pose proof (le_value_pow _ 32 KB KL) as R. change (256 ^ Z.of_nat 32) with (2 ^ 256) in R. destruct (clamped_range _ R C). lia.
Qed.
Lemma derived_grown (H : Hashes) root n k : hashes_ok -> root_key root -> derived root n k -> Z.of_nat n <= 2 ^ 26 -> grown (Z.of_nat n) k.
Proof.
  intros HO R D. induction D as [|n k i k' D IH I E]; intros N; [apply (root_grown H); assumption |]. specialize (IH ltac:(lia)). destruct (grown_step (Z.of_nat n) k i HO ltac:(lia) IH I) as (k1 & E1 & G & _). rewrite E in E1. apply Ok_inj in E1. subst k1. replace (Z.of_nat (S n)) with (Z.of_nat n + 1) by lia. exact G.
Qed.
Theorem C39_paths : forall (H : Hashes) root n k, hashes_ok -> root_key root -> derived root n k -> Z.of_nat n < 2 ^ 26 ->
  bytes_len 96 k /\ le_value (kL k) mod 8 = 0 /\ 2 ^ 254 <= le_value (kL k) < 2 ^ 255.
Proof. intros H root n k HO R D N. destruct (derived_grown H root n k HO R D ltac:(lia)) as (K & M & L & U). split; [exact K |]. split; [exact M |]. lia. Qed.
Print Assumptions C39_paths.
(** Derive never fails along such a path, and never wraps: the child's scalar is the exact sum. *)
Theorem C39_total : forall (H : Hashes) root n k i, hashes_ok -> root_key root -> derived root n k -> Z.of_nat n < 2 ^ 26 -> 0 <= i < 2 ^ 32 ->
  exists k' pk, Derive k i = Ok k' /\ publicKey k = Ok pk /\ pk = public_of (le_value (kL k)) /\
  le_value (kL k') = le_value (kL k) + 8 * le_value (firstn 28 (hmac_sha512 (chain k) (message_Z pk k i))).
Proof.
  intros H root n k i HO R D N I. destruct (derived_grown H root n k HO R D ltac:(lia)) as (K & M & L & U). exists (derive hmac_sha512 (pk_of k) k i), (pk_of k). pose proof limit_255 as LI.
  split; [apply Derive_spec; assumption |]. split; [apply publicKey_eq; exact K |]. split; [apply pk_of_exact; [exact K | lia] |]. unfold derive. rewrite child_kL. pose proof (zfirst_range (chain k) (message_Z (pk_of k) k i) HO). apply Z.mod_small. lia.
Qed.
Print Assumptions C39_total.
(** The path m/1852'/1815'/0'/0/0 *)
Example C39_example : exists root k, @root_key toy_hashes root /\ @derived toy_hashes root 5 k.
Proof.
  assert (R : @root_key toy_hashes (match @NewXPrv toy_hashes (repeat 7 32) with Ok k => k | _ => [] end)) by (left; exists (repeat 7 32); vm_compute; reflexivity). set (root := match _ with Ok k => k | _ => _ end) in R. clearbody root.
  assert (S : forall n k i, @derived toy_hashes root n k -> Z.of_nat n < 2 ^ 26 -> 0 <= i < 2 ^ 32 -> exists k', @derived toy_hashes root (S n) k').
  { intros n k i D N I. destruct (C39_total toy_hashes root n k i toy_hashes_ok R D N I) as (k' & pk & E & _). exists k'. econstructor; eassumption. }
  destruct (S _ _ (2 ^ 31 + 1852) (derived_root root) ltac:(lia) ltac:(lia)) as (k1 & D1). destruct (S _ _ (2 ^ 31 + 1815) D1 ltac:(lia) ltac:(lia)) as (k2 & D2). destruct (S _ _ (2 ^ 31) D2 ltac:(lia) ltac:(lia)) as (k3 & D3). destruct (S _ _ 0 D3 ltac:(lia) ltac:(lia)) as (k4 & D4). destruct (S _ _ 0 D4 ltac:(lia) ltac:(lia)) as (k5 & D5).
  exists root, k5. split; assumption.
Qed.

(** ** C40: messages *)
Lemma tag_neq (a b : Z) (x y : bytes) : a <> b -> a :: x <> b :: y. Proof. intros N E. injection E. auto. Qed.
Lemma app_le4 (x : bytes) i j : 0 <= i < 2 ^ 32 -> 0 <= j < 2 ^ 32 -> x ++ le4 i = x ++ le4 j -> i = j.
Proof. intros I J E. apply app_inv_head in E. exact (le4_inj i j I J E). Qed.
Lemma tag_le4 (a : Z) (x : bytes) i j : 0 <= i < 2 ^ 32 -> 0 <= j < 2 ^ 32 -> a :: x ++ le4 i = a :: x ++ le4 j -> i = j.
Proof. intros I J E. apply (app_le4 (a :: x)); assumption. Qed.
Lemma pair_eq {A B} (a a' : A) (b b' : B) : (a, b) = (a', b') -> a = a' /\ b = b'. Proof. intros E. injection E. auto. Qed.
Theorem C40_messages : forall k i j zi ci zj cj, bytes_len 96 k -> 0 <= i < 2 ^ 32 -> 0 <= j < 2 ^ 32 -> derive_messages k i = Ok (zi, ci) -> derive_messages k j = Ok (zj, cj) ->
  zi <> cj /\ (i <> j -> zi <> zj /\ ci <> cj).
Proof.
  intros k i j zi ci zj cj K I J Ei Ej. rewrite messages_eq in Ei, Ej by assumption. apply Ok_inj in Ei, Ej. apply pair_eq in Ei, Ej. destruct Ei as [<- <-], Ej as [<- <-]. unfold message_Z, message_c. split.
  - destruct (hardened i), (hardened j); apply tag_neq; discriminate.
  - intros N. destruct (hardened i), (hardened j); split; try (apply tag_neq; discriminate); intros E; apply N; exact (tag_le4 _ _ _ _ I J E).
Qed.
Print Assumptions C40_messages.
(** Messages of a hardened and a soft index differ even for different keys. *)
Theorem C40_domains : forall k k' i j zi ci zj cj, bytes_len 96 k -> bytes_len 96 k' -> 0 <= i < 2 ^ 31 -> 2 ^ 31 <= j < 2 ^ 32 -> derive_messages k i = Ok (zi, ci) -> derive_messages k' j = Ok (zj, cj) ->
  zi <> zj /\ zi <> cj /\ ci <> zj /\ ci <> cj.
Proof.
  intros k k' i j zi ci zj cj K K' I J Ei Ej. rewrite messages_eq in Ei, Ej by (try assumption; lia). apply Ok_inj in Ei, Ej. apply pair_eq in Ei, Ej. destruct Ei as [<- <-], Ej as [<- <-]. unfold message_Z, message_c, hardened.
  replace (2 ^ 31 <=? i) with false by (symmetry; apply Z.leb_gt; lia). replace (2 ^ 31 <=? j) with true by (symmetry; apply Z.leb_le; lia). repeat split; apply tag_neq; discriminate.
Qed.
Print Assumptions C40_domains.
(** Soft derivation: the HMAC key and both messages are determined by Public(). *)
Theorem C40_soft : forall k k' i, bytes_len 96 k -> bytes_len 96 k' -> 0 <= i < 2 ^ 31 -> Public k = Public k' ->
  derive_messages k i = derive_messages k' i /\ XPrv_ChainCode k = XPrv_ChainCode k'.
Proof.
  intros k k' i K K' I E. rewrite !Public_eq in E by assumption. apply Ok_inj in E. destruct (pk_of_ok k K) as [_ L], (pk_of_ok k' K') as [_ L'].
  assert (E1 : pk_of k = pk_of k'). { rewrite <- (firstn_all2 (pk_of k) (n := 32)), <- (firstn_all2 (pk_of k') (n := 32)) by lia. apply (f_equal (firstn 32)) in E. rewrite !firstn_app, L, L', Nat.sub_diag, !firstn_O, !app_nil_r in E. exact E. }
  rewrite E1 in E. apply app_inv_head in E. split; [|rewrite !chain_eq by assumption; rewrite E; reflexivity]. rewrite !messages_eq by (try assumption; lia). unfold message_Z, message_c, hardened. replace (2 ^ 31 <=? i) with false by (symmetry; apply Z.leb_gt; lia). rewrite E1. reflexivity.
Qed.
Print Assumptions C40_soft.
(** The last soft and the first hardened index *)
Example C40_example : bytes_len 96 (repeat 200 96) /\ exists z1 c1 z2 c2, derive_messages (repeat 200 96) (2 ^ 31) = Ok (z1, c1) /\ derive_messages (repeat 200 96) (2 ^ 31 - 1) = Ok (z2, c2) /\ length z1 = 69%nat /\ length z2 = 37%nat.
Proof.
  assert (K : bytes_len 96 (repeat 200 96)) by (split; [apply Forall_forall; intros x H; apply repeat_spec in H; subst x; unfold is_byte; lia | reflexivity]). split; [exact K |]. destruct (pk_of_ok _ K) as [_ L]. do 4 eexists.
  split; [apply messages_eq; [exact K | lia] |]. split; [apply messages_eq; [exact K | lia] |]. split; [reflexivity |]. unfold message_Z. change (hardened (2 ^ 31 - 1)) with false. cbv iota. set (pk := pk_of _) in *. clearbody pk. cbn [length]. rewrite app_length, L. reflexivity.
Qed.

(** ** C41: public keys *)
(** Missing: scalars above [digit_limit] (0x8777...7, above 2^255), for which the point is another one ([C41_exact]). *)
Theorem C41_public_partial : forall k, bytes_len 96 k -> exists pk, Public k = Ok (pk ++ chain k) /\ bytes_len 32 pk /\ bytes_len 64 (pk ++ chain k) /\
  XPrv_ChainCode k = Ok (chain k) /\ XPub_PublicKey (pk ++ chain k) = Ok pk /\ XPub_ChainCode (pk ++ chain k) = Ok (chain k) /\
  (le_value (kL k) < 2 ^ 255 -> pk = public_of (le_value (kL k))).
Proof.
  intros k K. exists (pk_of k). split; [apply Public_eq; exact K |]. destruct (pk_of_ok k K) as [B L]. destruct (chain_ok k K) as [CB CL]. split; [split; assumption |]. split; [split; [apply bytes_cat; assumption | rewrite app_length; lia] |].
  split; [apply chain_eq; exact K |]. split; [unfold XPub_PublicKey; rewrite slice_0 by (rewrite app_length; lia); rewrite firstn_app, L, Nat.sub_diag, firstn_O, app_nil_r, firstn_all2 by lia; reflexivity |].
  split; [unfold XPub_ChainCode; rewrite slice_end by (rewrite app_length; lia); rewrite skipn_app, L, Nat.sub_diag, skipn_all2 by lia; reflexivity |]. intros R. pose proof limit_255. apply pk_of_exact; [exact K | lia].
Qed.
Print Assumptions C41_public_partial.
(** Exactly the scalars up to [digit_limit] give the right point. *)
Theorem C41_exact : forall k, bytes_len 96 k -> (Public k = Ok (public_of (le_value (kL k)) ++ chain k) <-> le_value (kL k) <= digit_limit).
Proof.
  intros k K. rewrite (Public_eq k K). destruct (kL_ok k K) as [LB LL]. pose proof (le_value_pow _ 32 LB LL) as R. change (256 ^ Z.of_nat 32) with (2 ^ 256) in R. rewrite (pk_of_gen k K). split.
  - intros E. apply Ok_inj in E. apply app_inv_tail in E. apply C52_injective in E; [| apply zmul_on; exact base_on ..]. apply effective_exact; assumption.
  - intros L. rewrite effective_small by lia. reflexivity.
Qed.
Print Assumptions C41_exact.
Theorem C41_refuted : exists k, bytes_len 96 k /\ Public k <> Ok (public_of (le_value (kL k)) ++ chain k).
Proof.
  exists (repeat 255 96). assert (K : bytes_len 96 (repeat 255 96)) by (split; [apply Forall_forall; intros x H; apply repeat_spec in H; subst x; unfold is_byte; lia | reflexivity]). split; [exact K |]. intros E. apply (C41_exact _ K) in E. apply Zle_bool_imp_le in E || idtac. revert E. vm_compute. intros E. apply E. reflexivity.
Qed.
Print Assumptions C41_refuted.
Theorem C41_hash : forall (H : Hashes) pub, hashes_ok -> PublicKey_Hash pub = Ok (blake2b_224 pub) /\ bytes_len 28 (blake2b_224 pub).
Proof.
  intros H pub (_ & _ & _ & _ & HB & _). destruct (HB pub) as [B L]. split; [|split; assumption]. unfold PublicKey_Hash, Blake2b224. rewrite slice_0 by lia. cbn [bind]. rewrite firstn_all2 by lia. rewrite copy_all by (try exact L; reflexivity). reflexivity.
Qed.
Print Assumptions C41_hash.
Example C41_example : bytes_len 96 (repeat 77 96) /\ le_value (kL (repeat 77 96)) < 2 ^ 255.
Proof. split; [split; [apply Forall_forall; intros x H; apply repeat_spec in H; subst x; unfold is_byte; lia | reflexivity] | vm_compute; reflexivity]. Qed.

(** ** C50: signatures *)
Theorem C50_sign : forall (H : Hashes) k m, hashes_ok -> bytes_len 96 k -> le_value (kL k) < 2 ^ 255 -> exists pk c sig,
  Public k = Ok (pk ++ c) /\ bytes_len 32 pk /\ Sign k m = Ok sig /\ bytes_len 64 sig /\ verifies sha512 pk m sig.
Proof.
  intros H k m HO K R. pose proof (Sign_spec k m HO K) as S. cbv zeta in S. set (sig := public_of _ ++ le32 _) in S. clearbody sig. exists (pk_of k), (chain k), sig. split; [apply Public_eq; exact K |]. split; [exact (pk_of_ok k K) |]. split; [exact S |].
  split; [exact (Sign_shape k m sig S) |]. pose proof limit_255. apply Sign_verifies; try assumption. lia.
Qed.
Print Assumptions C50_sign.
(** Every key obtained by derivation from a root key signs correctly. *)
Theorem C50_derived : forall (H : Hashes) root n k m, hashes_ok -> root_key root -> derived root n k -> Z.of_nat n < 2 ^ 26 -> exists c sig,
  Public k = Ok (public_of (le_value (kL k)) ++ c) /\ Sign k m = Ok sig /\ verifies sha512 (public_of (le_value (kL k))) m sig.
Proof.
  intros H root n k m HO R D N. destruct (C39_paths H root n k HO R D N) as (K & _ & _ & U). destruct (C50_sign H k m HO K U) as (pk & c & sig & P & PL & S & _ & V). exists c, sig.
  destruct (C41_public_partial k K) as (pk' & P' & PL' & _ & _ & _ & _ & X). rewrite P in P'. apply Ok_inj in P'. assert (E : pk = pk').
  { apply (f_equal (firstn 32)) in P'. destruct PL as [_ L], PL' as [_ L']. rewrite !firstn_app, L, L', Nat.sub_diag, !firstn_O, !app_nil_r, !firstn_all2 in P' by lia. exact P'. }
  rewrite <- (X U), <- E. auto.
Qed.
Print Assumptions C50_derived.
(** The signature depends only on the two halves of the key and the message; the nonce only on kR and the message. *)
Theorem C50_deterministic : forall (H : Hashes) k k' m, hashes_ok -> bytes_len 96 k -> bytes_len 96 k' ->
  (kR k = kR k' -> forall s s', Sign k m = Ok s -> Sign k' m = Ok s' -> firstn 32 s = firstn 32 s') /\
  (kL k = kL k' -> kR k = kR k' -> Sign k m = Sign k' m).
Proof.
  intros H k k' m HO K K'. pose proof (Sign_spec k m HO K) as S. pose proof (Sign_spec k' m HO K') as S'. cbv zeta in S, S'. split.
  - intros E s s' X X'. rewrite S in X. rewrite S' in X'. apply Ok_inj in X, X'. subst s s'. rewrite E. set (R := public_of _). assert (LR : length R = 32%nat) by apply encode_bytes. rewrite !firstn_app, LR, Nat.sub_diag, !firstn_O. reflexivity.
  - intros EL ER. rewrite S, S'. unfold pk_of. rewrite EL, ER. reflexivity.
Qed.
Print Assumptions C50_deterministic.
Example C50_example : hashes_ok (H := toy_hashes) /\ bytes_len 96 (repeat 77 96) /\ le_value (kL (repeat 77 96)) < 2 ^ 255.
Proof. split; [exact toy_hashes_ok |]. exact C41_example. Qed.

(** ** C51: watch-only wallets *)
(** What a holder of the public key and chain code computes for a soft index: the point plus [8 zL]B, and the new chain code. *)
Definition follows (hmac : bytes -> bytes -> bytes) (pk c : bytes) (i : Z) (pk' c' : bytes) : Prop :=
  exists A, on_curve A /\ encode_point A = pk /\
  pk' = encode_point (padd A (zmul (8 * le_value (firstn 28 (hmac c (2 :: pk ++ le4 i)))) base_point)) /\
  c' = skipn 32 (hmac c (3 :: pk ++ le4 i)).
(** Missing: scalars of 2^255 and above, for which it is false ([C51_refuted]). *)
Theorem C51_follow_partial : forall (H : Hashes) k i, hashes_ok -> bytes_len 96 k -> le_value (kL k) < 2 ^ 255 -> 0 <= i < 2 ^ 31 -> exists pk c k' pk' c',
  Public k = Ok (pk ++ c) /\ length pk = 32%nat /\ Derive k i = Ok k' /\ Public k' = Ok (pk' ++ c') /\ length pk' = 32%nat /\ follows hmac_sha512 pk c i pk' c'.
Proof.
  intros H k i HO K R I. pose proof limit_255 as LI. assert (PK : pk_of k = public_of (le_value (kL k))) by (apply pk_of_exact; [exact K | lia]).
  set (k' := derive hmac_sha512 (pk_of k) k i). assert (K' : key96 k') by (apply Derive_key; [exact HO | exact K | lia]).
  exists (pk_of k), (chain k), k', (pk_of k'), (chain k'). split; [apply Public_eq; exact K |]. split; [apply (pk_of_ok k K) |]. split; [apply Derive_spec; [exact HO | exact K | lia] |]. split; [apply Public_eq; exact K' |]. split; [apply (pk_of_ok k' K') |].
  assert (NH : hardened i = false) by (apply Z.leb_gt; lia). exists (zmul (le_value (kL k)) base_point). split; [apply zmul_on; exact base_on |]. split; [symmetry; exact PK |]. split.
  - pose proof (zfirst_range (chain k) (message_Z (pk_of k) k i) HO) as ZR. assert (V : le_value (kL k') = le_value (kL k) + 8 * le_value (firstn 28 (hmac_sha512 (chain k) (message_Z (pk_of k) k i)))). { unfold k', derive. rewrite child_kL. destruct (kL_ok k K) as [LB LL]. pose proof (le_value_pow _ 32 LB LL). apply Z.mod_small. lia. }
    rewrite pk_of_exact by (try exact K'; lia). rewrite V. unfold message_Z. rewrite NH. unfold public_of. rewrite zmul_add by exact base_on. reflexivity.
  - unfold k', derive. rewrite child_chain. unfold message_c. rewrite NH. reflexivity.
Qed.
Print Assumptions C51_follow_partial.
Theorem C51_same_partial : forall (H : Hashes) k1 k2 i k1' k2', hashes_ok -> bytes_len 96 k1 -> bytes_len 96 k2 -> le_value (kL k1) < 2 ^ 255 -> le_value (kL k2) < 2 ^ 255 -> 0 <= i < 2 ^ 31 ->
  Public k1 = Public k2 -> Derive k1 i = Ok k1' -> Derive k2 i = Ok k2' -> Public k1' = Public k2'.
Proof.
  intros H k1 k2 i k1' k2' HO K1 K2 R1 R2 I E D1 D2. destruct (C51_follow_partial H k1 i HO K1 R1 I) as (pk & c & x & pk' & c' & P1 & L1 & X1 & Q1 & _ & A & CA & EA & F1 & F2). destruct (C51_follow_partial H k2 i HO K2 R2 I) as (pq & d & y & pq' & d' & P2 & L2 & X2 & Q2 & _ & B & CB & EB & G1 & G2).
  rewrite X1 in D1. apply Ok_inj in D1. subst x. rewrite X2 in D2. apply Ok_inj in D2. subst y. rewrite P1, P2 in E. apply Ok_inj in E.
  assert (E1 : pk = pq). { pose proof (f_equal (firstn 32) E) as E'. rewrite !firstn_app, L1, L2, Nat.sub_diag, !firstn_O, !app_nil_r, !firstn_all2 in E' by lia. exact E'. }
  rewrite <- E1 in *. apply app_inv_head in E. rewrite <- E in *. assert (AB : A = B) by (apply C52_injective; [exact CA | exact CB | rewrite EA, EB; reflexivity]). rewrite <- AB in *. rewrite Q1, Q2, F1, F2, G1, G2. reflexivity.
Qed.
Print Assumptions C51_same_partial.
(** For keys on derivation paths there is no restriction. *)
Theorem C51_derived : forall (H : Hashes) r1 r2 n1 n2 k1 k2 i k1' k2', hashes_ok -> root_key r1 -> root_key r2 -> derived r1 n1 k1 -> derived r2 n2 k2 -> Z.of_nat n1 < 2 ^ 26 -> Z.of_nat n2 < 2 ^ 26 -> 0 <= i < 2 ^ 31 ->
  Public k1 = Public k2 -> Derive k1 i = Ok k1' -> Derive k2 i = Ok k2' -> Public k1' = Public k2'.
Proof.
  intros H r1 r2 n1 n2 k1 k2 i k1' k2' HO A1 A2 D1 D2 N1 N2 I. destruct (C39_paths H _ _ _ HO A1 D1 N1) as (K1 & _ & _ & U1). destruct (C39_paths H _ _ _ HO A2 D2 N2) as (K2 & _ & _ & U2). apply (C51_same_partial H); assumption.
Qed.
Print Assumptions C51_derived.
(** False beyond: for every chain code and soft index there are two keys with the same Public() whose children differ (unless HMAC returns 28 zero bytes). *)
Lemma pk_val k n : key96 k -> le_value (kL k) = n -> n <= digit_limit -> pk_of k = public_of n. Proof. intros K <- L. exact (pk_of_exact k K L). Qed.
Lemma public_mod n m : n mod ell = m mod ell -> public_of n = public_of m. Proof. intros E. exact (f_equal encode_point (proj2 (base_mult_eq n m) E)). Qed.
Theorem C51_refuted : forall (H : Hashes) c i, hashes_ok -> bytes_len 32 c -> 0 <= i < 2 ^ 31 -> exists k1 k2, bytes_len 96 k1 /\ bytes_len 96 k2 /\ Public k1 = Public k2 /\
  (forall pk, publicKey k1 = Ok pk -> le_value (firstn 28 (hmac_sha512 c (2 :: pk ++ le4 i))) <> 0 -> forall k1' k2', Derive k1 i = Ok k1' -> Derive k2 i = Ok k2' -> Public k1' <> Public k2').
Proof.
  intros H c i HO [CB CL] I. set (key := fun n => le32 n ++ repeat 0 32 ++ c).
  assert (DV : digit_limit < 2 ^ 256 - 2 ^ 250) by (vm_compute; reflexivity). assert (DE : 0 <= digit_limit - ell) by (vm_compute; discriminate). pose proof ell_range as ER.
  assert (KK : forall n, key96 (key n)). { intros n. split; [|unfold key; rewrite !app_length, le32_length, repeat_length; lia]. apply bytes_cat; [apply le32_bytes |]. apply bytes_cat; [|exact CB]. apply Forall_forall. intros x X. apply repeat_spec in X. subst x. unfold is_byte. lia. }
  assert (KLk : forall n, 0 <= n < 2 ^ 256 -> le_value (kL (key n)) = n). { intros n N. unfold kL, key. rewrite firstn_app, le32_length, Nat.sub_diag, firstn_O, app_nil_r, firstn_all2 by (rewrite le32_length; lia). apply le_value_le32. exact N. }
  assert (CH : forall n, chain (key n) = c). { intros n. unfold chain, key. rewrite app_assoc, skipn_app, skipn_all2 by (rewrite app_length, le32_length, repeat_length; lia). rewrite app_length, le32_length, repeat_length. reflexivity. }
  set (a := digit_limit - ell) in *. set (b := digit_limit) in *. assert (Va : le_value (kL (key a)) = a) by (apply KLk; lia). assert (Vb : le_value (kL (key b)) = b) by (apply KLk; lia).
  assert (PA : pk_of (key a) = public_of a) by (apply pk_val; [apply KK | exact Va | fold b; lia]).
  assert (PB : pk_of (key b) = public_of b) by (apply pk_val; [apply KK | exact Vb | fold b; lia]).
  assert (AB : public_of a = public_of b). { apply public_mod. unfold a. fold b. rewrite Zminus_mod, Z_mod_same_full, Z.sub_0_r, Z.mod_mod by lia. reflexivity. }
  exists (key a), (key b). split; [apply KK |]. split; [apply KK |]. split; [rewrite !Public_eq by apply KK; rewrite !CH; rewrite PA, PB, AB; exact eq_refl |].
  intros pk EP ZN k1' k2' D1 D2. rewrite publicKey_eq in EP by apply KK. apply Ok_inj in EP. subst pk. rewrite Derive_spec in D1, D2 by (try apply KK; try assumption; lia). apply Ok_inj in D1, D2. subst k1' k2'.
  assert (NH : hardened i = false) by (apply Z.leb_gt; lia). rewrite !Public_eq by (apply Derive_key; [exact HO | apply KK | lia]). intros E. apply Ok_inj in E.
  set (z := le_value (firstn 28 (hmac_sha512 c (2 :: pk_of (key a) ++ le4 i)))) in *. assert (ZR : 0 <= z < 2 ^ 224) by (apply zfirst_range; exact HO).
  assert (W : forall n, n = a \/ n = b -> key96 (derive hmac_sha512 (pk_of (key n)) (key n) i) /\ le_value (kL (derive hmac_sha512 (pk_of (key n)) (key n) i)) = n + 8 * z).
  { intros n N. split; [apply Derive_key; [exact HO | apply KK | lia] |]. unfold derive. rewrite child_kL. rewrite CH. unfold message_Z. rewrite NH. assert (Q : pk_of (key n) = pk_of (key a)) by (destruct N as [-> | ->]; [reflexivity | rewrite PA, PB; symmetry; exact AB]). rewrite Q. fold z. rewrite KLk by lia. apply Z.mod_small. lia. }
  destruct (W a (or_introl eq_refl)) as [Ka La], (W b (or_intror eq_refl)) as [Kb Lb]. set (ca := derive _ (pk_of (key a)) _ _) in *. set (cb := derive _ (pk_of (key b)) _ _) in *. clearbody ca cb.
  assert (E1 : pk_of ca = pk_of cb). { pose proof (f_equal (firstn 32) E) as E'. rewrite !firstn_app, (proj2 (pk_of_ok _ Ka)), (proj2 (pk_of_ok _ Kb)), Nat.sub_diag, !firstn_O, !app_nil_r in E'. rewrite (firstn_all2 (pk_of ca)) in E' by (rewrite (proj2 (pk_of_ok _ Ka)); lia). rewrite (firstn_all2 (pk_of cb)) in E' by (rewrite (proj2 (pk_of_ok _ Kb)); lia). exact E'. }
  rewrite (pk_of_gen _ Kb), Lb in E1. assert (A8 : a + 8 * z <= digit_limit) by (fold b; unfold a; assert (2 ^ 252 < ell) by (vm_compute; reflexivity); lia). rewrite (pk_val _ _ Ka La A8) in E1. apply C52_injective in E1; [| apply zmul_on; exact base_on ..].
  assert (X : zmul (effective (b + 8 * z)) base_point = zmul (b + 8 * z) base_point). { rewrite <- E1. apply base_mult_eq. unfold a. fold b. replace (b - ell + 8 * z) with (b + 8 * z + (-1) * ell) by ring. rewrite Z.mod_add by lia. reflexivity. }
  apply effective_exact in X; [|lia]. fold b in X. lia.
Qed.
Print Assumptions C51_refuted.
Definition const_hashes : Hashes := {| sha256 := fun _ => repeat 1 32; sha512 := fun _ => repeat 2 64; hmac_sha512 := fun _ _ => repeat 3 64; pbkdf2_sha512 := fun _ _ _ n => repeat 4 n; blake2b_224 := fun _ => repeat 5 28; blake2b_256 := fun _ => repeat 6 32 |}.
Example C51_example : @hashes_ok const_hashes /\ bytes_len 32 (repeat 3 32) /\ forall pk, le_value (firstn 28 (@hmac_sha512 const_hashes (repeat 3 32) (2 :: pk ++ le4 5))) <> 0.
Proof.
  assert (R : forall v n, 0 <= v < 256 -> bytes_ok (repeat v n) /\ length (repeat v n) = n) by (intros v n V; split; [apply Forall_forall; intros x I; apply repeat_spec in I; subst x; exact V | apply repeat_length]).
  split; [repeat split; intros; apply R; lia |]. split; [apply R; lia |]. intros pk. cbn [hmac_sha512 const_hashes]. vm_compute. discriminate.
Qed.

(** ** C69: built transactions carry valid signatures *)
(** Build with real keys: every witness is an Ed25519 signature of the hash of the serialised body under the key's public key. *)
Theorem C69_signed : forall (H : Hashes) (MO : MapOrder) w b w' t', hashes_ok -> @reachable (tx_crypto H) MO w -> (b < nbuilders w)%nat ->
  (forall k, In k (builder_keys w b) -> bytes_len 96 k /\ le_value (kL k) < 2 ^ 255) -> @build (tx_crypto H) MO w b = (w', Ok t') ->
  exists s, body_marshal (Body (load w' t')) = Ok s /\
    Forall2 (fun k x => VKey x = public_of (le_value (kL k)) /\ bytes_len 64 (Signature x) /\ verifies sha512 (VKey x) (blake2b_256 s) (Signature x))
      (builder_keys w b) (Witness (load w' t')).
Proof.
  intros H MO w b w' t' HO R Hb KS E. destruct (C24_build (tx_crypto H) MO w b w' t' R Hb E) as (s & Es & F & _). exists s. split; [exact Es |]. revert KS. induction F as [|k x ks xs [P S] _ IH]; intros KS; constructor.
  - destruct (KS k (or_introl eq_refl)) as [K U]. cbn [key_public key_sign blake2b256 tx_crypto] in P, S. rewrite (key_public_eq k K) in P. apply Ok_inj in P. pose proof limit_255 as LI. split; [rewrite <- P; apply pk_of_exact; [exact K | lia] |].
    split; [exact (Sign_shape _ _ _ S) |]. rewrite <- P. apply Sign_verifies; try assumption. lia.
  - apply IH. intros k' I. apply KS. right. exact I.
Qed.
Print Assumptions C69_signed.
(** The signed message is the transaction's own Hash(). Missing: metadata maps with two entries ([C24_order_refuted]). *)
Theorem C69_hash_partial : forall (H : Hashes) (MO : MapOrder) w b w' t', hashes_ok -> runtime_order -> @reachable (tx_crypto H) MO w -> (b < nbuilders w)%nat -> meta_free (Metadata (builder_tx w b)) ->
  (forall k, In k (builder_keys w b) -> bytes_len 96 k /\ le_value (kL k) < 2 ^ 255) -> @build (tx_crypto H) MO w b = (w', Ok t') ->
  exists h, (forall n, snd (@tx_hash (tx_crypto H) MO n (load w' t')) = Ok h) /\ bytes_len 32 h /\
    Forall2 (fun k x => VKey x = public_of (le_value (kL k)) /\ verifies sha512 (VKey x) h (Signature x)) (builder_keys w b) (Witness (load w' t')).
Proof.
  intros H MO w b w' t' HO RO R Hb MF KS E. destruct (C24_hash_partial (tx_crypto H) MO w b w' t' RO R Hb MF E) as (h & Eh & F). exists h. split; [exact Eh |].
  split. { destruct (@tx_hash_body (tx_crypto H) MO _ _ _ (Eh 0%nat)) as (s & _ & ->). cbn [blake2b256 tx_crypto]. destruct HO as (_ & _ & _ & _ & _ & HB). exact (HB s). }
  revert KS. induction F as [|k x ks xs [P S] _ IH]; intros KS; constructor.
  - destruct (KS k (or_introl eq_refl)) as [K U]. cbn [key_public key_sign tx_crypto] in P, S. rewrite (key_public_eq k K) in P. apply Ok_inj in P. pose proof limit_255 as LI. split; [rewrite <- P; apply pk_of_exact; [exact K | lia] |]. rewrite <- P. apply Sign_verifies; try assumption. lia.
  - apply IH. intros k' I. apply KS. right. exact I.
Qed.
Print Assumptions C69_hash_partial.
(** With valid keys and a well-formed transaction Build succeeds. *)
Theorem C69_total : forall (H : Hashes) (MO : MapOrder) w b, hashes_ok -> runtime_order -> tx_ok (builder_tx w b) ->
  (forall k, In k (builder_keys w b) -> bytes_len 96 k) -> exists w' t', @build (tx_crypto H) MO w b = (w', Ok t').
Proof.
  intros H MO w b HO RO T KS. unfold build. rewrite run_hash_eq. cbn [fst snd]. fold (builder_tx w b). rewrite (tx_hash_spec _ _ RO (tx_crypto_hash HO) T). cbn [fst snd]. set (h := blake2b256 _). clearbody h.
  set (w1 := tick _ _). assert (E : slice_keys w1 (b_keys (bld w1 b)) = builder_keys w b) by reflexivity. rewrite E. clear E. clearbody w1.
  assert (X : exists ws, @sign_all (tx_crypto H) (builder_keys w b) h = Ok ws).
  { induction (builder_keys w b) as [|k ks IH]; [eexists; reflexivity |]. destruct IH as [ws E]; [intros k' I; apply KS; right; exact I |]. pose proof (KS k (or_introl eq_refl)) as K. cbn [sign_all key_public key_sign tx_crypto]. rewrite (key_public_eq k K). cbn [bind]. rewrite (Sign_spec k h HO K). cbn [bind]. rewrite E. cbn [bind]. eexists. reflexivity. }
  destruct X as [ws ->]. do 2 eexists. reflexivity.
Qed.
Print Assumptions C69_total.
Definition C69_keys : list bytes := [repeat 77 96; repeat 56 96].
Definition C69_history : list op := [OMakeKeys C69_keys 0; ONewBuilder ex_fees {| s_arr := 0; s_off := 0; s_len := 2 |}; OAddInputs 0 [ex_input 5000000]; OSetTTL 0 5000].
Definition C69_world : World := @run (tx_crypto toy_hashes) id_order empty_world C69_history.
Example C69_example : @reachable (tx_crypto toy_hashes) id_order C69_world /\ (0 < nbuilders C69_world)%nat /\ tx_ok (builder_tx C69_world 0) /\ meta_free (Metadata (builder_tx C69_world 0)) /\
  builder_keys C69_world 0 = C69_keys /\ (forall k, In k C69_keys -> bytes_len 96 k /\ le_value (kL k) < 2 ^ 255).
Proof.
  split; [exists C69_history; split; [| reflexivity]; cbn [valid_run C69_history]; split; [exact Logic.I |]; split; [cbn; lia |]; repeat (split; [cbv [step make_keys new_tx_builder]; cbn; lia |]); exact Logic.I |].
  split; [cbn; lia |]. split.
  - split; [|split; [split; [constructor | cbn; lia] | exact Logic.I]]. unfold body_ok.
    set (B := Body _). assert (EB : B = {| Inputs := [ex_input 5000000]; Outputs := []; Fee := 0; TTL := 5000; AuxHash := [] |}) by reflexivity. clearbody B. subst B. cbn [Inputs Outputs Fee TTL AuxHash].
    split; [|split; [constructor | split; [vm_compute; reflexivity | split; [vm_compute; reflexivity | split; [lia | split; [lia | split; [intros x [] | vm_compute; reflexivity]]]]]]].
    constructor; [|constructor]. split; [intros x I; apply repeat_spec in I; subst x; lia |]. split; [vm_compute; reflexivity | cbn; lia].
  - split; [exact Logic.I |]. split; [reflexivity |]. assert (R : forall v, 0 <= v < 256 -> bytes_len 96 (repeat v 96)) by (intros v V; split; [apply Forall_forall; intros x I; apply repeat_spec in I; subst x; exact V | apply repeat_length]).
    intros k [<- | [<- | []]]; (split; [apply R; lia | vm_compute; reflexivity]).
Qed.
