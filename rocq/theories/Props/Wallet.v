(** C73, C74: keys and addresses of a wallet, from the entropy to the signed transaction. *)
From Verif.Model Require Import Base Bech32 Edwards Network Address Tx Builder Bip32 Keys Wallet.
From Verif.Spec Require Import Bech32Spec BchSpec EdSpec CborSpec TxSpec MdSpec Bip32Spec Cip19 AddressSpec WalletSpec.
From Verif.Proofs Require Import Util RadixFacts ScalarFacts FieldFacts CurveFacts GroupFacts TableFacts ScalarMult TxFacts HeapFacts HeapProps FeeFacts PrimeOrder Bip32Facts KeyFacts AddressFacts AddressProps.
From Verif.Props Require Import Tx Edwards Builder Bip32 Shelley.
Open Scope Z_scope.
#[local] Opaque zmul.

(** ** C73 *)
Lemma derive_step (H : Hashes) n k i : hashes_ok -> 0 <= n < 2 ^ 26 -> grown n k -> 0 <= i < 2 ^ 32 ->
  Derive k i = Ok (derive hmac_sha512 (public_of (le_value (kL k))) k i) /\ grown (n + 1) (derive hmac_sha512 (public_of (le_value (kL k))) k i).
Proof.
  intros HO N G I. destruct (grown_step n k i HO N G I) as (k' & E & G' & _). pose proof G as (K & _ & L & U).
  pose proof limit_255 as LI.
  assert (PK : pk_of k = public_of (le_value (kL k))) by (apply pk_of_exact; [exact K | lia]).
  assert (D : Derive k i = Ok (derive hmac_sha512 (public_of (le_value (kL k))) k i)) by (rewrite <- PK; apply Derive_spec; assumption).
  split; [exact D |]. rewrite E in D. apply Ok_inj in D. rewrite <- D. exact G'.
Qed.
Lemma derive_path_key (H : Hashes) path : hashes_ok -> Forall (fun i => 0 <= i < 2 ^ 32) path -> forall n k, 0 <= n -> n + zlen path <= 2 ^ 26 -> grown n k ->
  derive_path k path = Ok (path_key hmac_sha512 k path) /\ grown (n + zlen path) (path_key hmac_sha512 k path).
Proof.
  intros HO F. induction F as [| i path I F IH]; intros n k N L G.
  - cbn [derive_path path_key]. unfold zlen. cbn [length Z.of_nat]. rewrite Z.add_0_r. split; [reflexivity | exact G].
  - assert (E : zlen (i :: path) = 1 + zlen path) by (unfold zlen; cbn [length]; lia). rewrite E in L |- *. assert (0 <= zlen path) by (unfold zlen; lia).
    destruct (derive_step H n k i HO ltac:(lia) G I) as [D G1]. cbn [derive_path path_key]. rewrite D. cbn [bind].
    destruct (IH (n + 1) _ ltac:(lia) ltac:(lia) G1) as [E2 G2]. split; [exact E2 |]. replace (n + (1 + zlen path)) with (n + 1 + zlen path) by lia. exact G2.
Qed.

(** Every derivation path from a root key gives the key BIP32-Ed25519 defines. *)
Theorem C73_paths : forall (H : Hashes) root path, hashes_ok -> root_key root -> Forall (fun i => 0 <= i < 2 ^ 32) path -> zlen path <= 2 ^ 26 ->
  fold_left (fun r i => do k <- r; Derive k i) path (Ok root) = Ok (path_key hmac_sha512 root path).
Proof.
  intros H root path HO R F L. destruct (derive_path_key H path HO F 0 root ltac:(lia) ltac:(lia) (root_grown H root HO R)) as [E _].
  rewrite <- E. clear. generalize (root). induction path as [| i path IH]; intros k; [reflexivity |]. cbn [fold_left derive_path bind].
  destruct (Derive k i) as [k' | e |] eqn:D; cbn [bind]; [apply IH | |]; clear; induction path; cbn [fold_left bind]; auto.
Qed.
Print Assumptions C73_paths.

(** The address of a wallet: credentials are the key hashes of the keys at the CIP-1852 paths, and the third result is
    the key of the payment credential. *)
Lemma key_hash_eq (H : Hashes) n k : hashes_ok -> 0 <= n <= 2 ^ 26 -> grown n k ->
  key_hash k = Ok (blake2b_224 (public_key_of k)).
Proof.
  intros HO N (K & _ & L & U). pose proof limit_255 as LI. unfold key_hash. rewrite (Public_eq k K). cbn [bind]. unfold XPub_PublicKey. destruct (pk_of_ok k K) as [B LP].
  rewrite slice_0 by (rewrite app_length; lia). rewrite firstn_app, LP, Nat.sub_diag, firstn_O, app_nil_r, firstn_all2 by lia. cbn [bind].
  destruct (C41_hash H (pk_of k) HO) as [E _]. rewrite E. unfold public_key_of. rewrite pk_of_exact by (try exact K; lia). reflexivity.
Qed.
Theorem C73_base_address : forall (H : Hashes) net root, hashes_ok -> root_key root ->
  let prv := path_key hmac_sha512 root payment_path in
  let stk := path_key hmac_sha512 root stake_path in
  generateBaseAddress net root =
    Ok ({| ba_net := net; ba_pay := {| Kind := 0; Payload := blake2b_224 (public_key_of prv) |};
           ba_stake := {| Kind := 0; Payload := blake2b_224 (public_key_of stk) |} |}, prv) /\
  bytes_len 96 prv /\ bytes_len 96 stk /\ le_value (kL prv) < 2 ^ 255 /\ le_value (kL stk) < 2 ^ 255.
Proof.
  intros H net root HO R prv stk. pose proof (root_grown H root HO R) as G0.
  assert (V : harden 1852 = hard 1852 /\ harden 1815 = hard 1815 /\ harden 0 = hard 0) by (repeat split; reflexivity). destruct V as (V1 & V2 & V3).
  assert (B : forall i, i = hard 1852 \/ i = hard 1815 \/ i = hard 0 \/ i = 0 \/ i = 2 -> 0 <= i < 2 ^ 32) by (unfold hard; intros; lia).
  destruct (derive_step H 0 root (hard 1852) HO ltac:(lia) G0 ltac:(apply B; auto 10)) as [D1 G1]. set (k1 := derive _ _ root _) in *.
  destruct (derive_step H 1 k1 (hard 1815) HO ltac:(lia) G1 ltac:(apply B; auto 10)) as [D2 G2]. set (k2 := derive _ _ k1 _) in *.
  destruct (derive_step H 2 k2 (hard 0) HO ltac:(lia) G2 ltac:(apply B; auto 10)) as [D3 G3]. set (k3 := derive _ _ k2 _) in *.
  destruct (derive_step H 3 k3 0 HO ltac:(lia) G3 ltac:(apply B; auto 10)) as [D4 G4]. set (k4 := derive _ _ k3 0) in *.
  destruct (derive_step H 4 k4 0 HO ltac:(lia) G4 ltac:(apply B; auto 10)) as [D5 G5]. set (k5 := derive _ _ k4 0) in *.
  destruct (derive_step H 3 k3 2 HO ltac:(lia) G3 ltac:(apply B; auto 10)) as [D6 G6]. set (k6 := derive _ _ k3 2) in *.
  destruct (derive_step H 4 k6 0 HO ltac:(lia) G6 ltac:(apply B; auto 10)) as [D7 G7]. set (k7 := derive _ _ k6 0) in *.
  assert (E5 : prv = k5) by reflexivity. assert (E7 : stk = k7) by reflexivity. rewrite E5, E7. clearbody k7. clear E7 stk. clearbody k5. clear E5 prv.
  split.
  - unfold generateBaseAddress, accountKey. rewrite V1, V2, V3, D1. cbn [bind]. rewrite D2. cbn [bind]. rewrite D3. cbn [bind]. rewrite D4. cbn [bind]. rewrite D5. cbn [bind].
    rewrite (key_hash_eq H 5 k5 HO ltac:(lia) G5). cbn [bind]. rewrite D6. cbn [bind]. rewrite D7. cbn [bind].
    rewrite (key_hash_eq H 5 k7 HO ltac:(lia) G7). cbn [bind]. reflexivity.
  - destruct G5 as (K5 & _ & _ & U5). destruct G7 as (K7 & _ & _ & U7). split; [exact K5 |]. split; [exact K7 |]. split; lia.
Qed.
Print Assumptions C73_base_address.

(** Restoring from the entropy: the same addresses, and the enterprise address is the base address without its stake part. *)
Theorem C73_restore : forall (H : Hashes) net entropy, hashes_ok -> exists root addr prv,
  FromBip39Entropy entropy [] = Ok root /\ root_key root /\ generateBaseAddress net root = Ok (addr, prv) /\
  restoreBaseAddress net entropy = Ok addr /\ generateEnterprise net entropy = Ok (ToEnterprise addr).
Proof.
  intros H net entropy HO. destruct (C37_FromBip39Entropy H entropy [] HO) as (root & E & _). assert (R : root_key root) by (right; exists entropy, []; exact E).
  destruct (C73_base_address H net root HO R) as (G & _). exists root. do 2 eexists. split; [exact E |]. split; [exact R |]. split; [exact G |].
  unfold restoreBaseAddress, generateEnterprise. rewrite E. cbn [bind]. rewrite G. split; [reflexivity |].
  unfold generateBaseAddress in G. destruct (accountKey root) as [a | |]; cbn [bind] in G |- *; try discriminate. destruct (Derive a 0) as [k | |]; cbn [bind] in G |- *; try discriminate.
  destruct (Derive k 0) as [k' | |]; cbn [bind] in G |- *; try discriminate. destruct (key_hash k') as [h | |]; cbn [bind] in G |- *; try discriminate.
  destruct (Derive a 2) as [s | |]; cbn [bind] in G; try discriminate. destruct (Derive s 0) as [s' | |]; cbn [bind] in G; try discriminate. destruct (key_hash s') as [h' | |]; cbn [bind] in G; try discriminate.
  unfold NewBaseAddress in G. apply Ok_inj in G. pose proof (f_equal (fun p => Payload (ba_pay (fst p))) G) as G1. cbn [fst ba_pay Payload] in G1. unfold ToEnterprise, NewEnterpriseAddress, NewKeyStakeCredential. cbn [ba_net ba_pay]. rewrite G1. reflexivity.
Qed.
Print Assumptions C73_restore.

(** The address is well formed on both networks, so its text is a BIP-173 text that NewAddress reads back. *)
Theorem C73_text : forall (H : Hashes) (U : Unicode) (RT : Runtime) net root addr prv, hashes_ok -> root_key root -> known_net net ->
  generateBaseAddress net root = Ok (addr, prv) ->
  shelley_ok (ABase addr) /\ exists s, addr_string (ABase addr) = Ok s /\ bech32_text s (own_prefix (ABase addr)) (addr_bytes (ABase addr)) /\ NewAddress s = Ok (ABase addr).
Proof.
  intros H U RT net root addr prv HO R N G. destruct (C73_base_address H net root HO R) as (E & _). rewrite E in G. apply Ok_inj in G. pose proof (f_equal fst G) as A. cbn [fst] in A. subst addr. clear G E.
  assert (HB : forall m, hash28 (blake2b_224 m)). { intros m. destruct HO as (_ & _ & _ & _ & HB & _). destruct (HB m) as [B L]. split; [exact L |]. intros b I. exact (proj1 (Forall_forall _ _) B b I). }
  assert (O : shelley_ok (ABase {| ba_net := net; ba_pay := {| Kind := 0; Payload := blake2b_224 (public_key_of (path_key hmac_sha512 root payment_path)) |};
    ba_stake := {| Kind := 0; Payload := blake2b_224 (public_key_of (path_key hmac_sha512 root stake_path)) |} |})).
  { split; [split; (split; [left; reflexivity | apply HB]) |]. destruct N as [-> | ->]; [left | right]; reflexivity. }
  split; [exact O |]. destruct (C06_bip173 U RT _ O ltac:(intros [])) as (s & Es & T & _). destruct (C06_string_roundtrip U RT _ O ltac:(intros [])) as (s2 & body & Es2 & _ & Nw & _).
  rewrite Es in Es2. apply Ok_inj in Es2. subst s2. exists s. split; [exact Es |]. split; [exact T | exact Nw].
Qed.
Print Assumptions C73_text.

(** The key spends from the address: in every transaction Build makes with it, the witness's public key hashes to the
    payment credential and its signature of the body hash verifies. *)
Theorem C73_spend : forall (H : Hashes) (MO : MapOrder) net root addr prv w b w' t', hashes_ok -> root_key root -> generateBaseAddress net root = Ok (addr, prv) ->
  @reachable (tx_crypto H) MO w -> (b < nbuilders w)%nat -> builder_keys w b = [prv] -> @build (tx_crypto H) MO w b = (w', Ok t') ->
  exists s x, body_marshal (Body (load w' t')) = Ok s /\ Witness (load w' t') = [x] /\
    blake2b_224 (VKey x) = Payload (ba_pay addr) /\ verifies sha512 (VKey x) (blake2b_256 s) (Signature x).
Proof.
  intros H MO net root addr prv w b w' t' HO R G RW Hb KS E. destruct (C73_base_address H net root HO R) as (G' & K & _ & U & _). rewrite G' in G. apply Ok_inj in G. set (p := path_key hmac_sha512 root payment_path) in *. clearbody p.
  pose proof (f_equal snd G) as EP. pose proof (f_equal (fun q => Payload (ba_pay (fst q))) G) as EA. cbn [fst snd ba_pay Payload] in EP, EA. subst p.
  destruct (C69_signed H MO w b w' t' HO RW Hb) as (s & Es & F); [intros k I; rewrite KS in I; destruct I as [<- | []]; split; assumption | exact E |].
  rewrite KS in F. inversion F as [| k x ks xs (P & _ & V) F' E1 E2]; subst. inversion F'; subst. exists s, x. split; [exact Es |]. split; [symmetry; exact E2 |]. split; [| exact V].
  rewrite P. exact EA.
Qed.
Print Assumptions C73_spend.

(** The hypotheses are met: a root key made from entropy, a builder with the wallet's key. *)
Example C73_example : exists root addr prv w, @root_key toy_hashes root /\ @generateBaseAddress toy_hashes TestNet root = Ok (addr, prv) /\
  @reachable (tx_crypto toy_hashes) id_order w /\ (0 < nbuilders w)%nat /\ builder_keys w 0 = [prv] /\
  exists w' t', @build (tx_crypto toy_hashes) id_order w 0 = (w', Ok t').
Proof.
  destruct (C73_restore toy_hashes TestNet (repeat 9 32) toy_hashes_ok) as (root & addr & prv & _ & R & G & _). exists root, addr, prv.
  pose proof (C73_base_address toy_hashes TestNet root toy_hashes_ok R) as (G' & K & _). rewrite G' in G. apply Ok_inj in G. pose proof (f_equal snd G) as EP. cbn [snd] in EP. rewrite EP in K.
  set (hist := [OMakeKeys [prv] 0; ONewBuilder ex_fees {| s_arr := 0; s_off := 0; s_len := 1 |}; OAddInputs 0 [ex_input 5000000]; OSetTTL 0 5000]).
  exists (@run (tx_crypto toy_hashes) id_order empty_world hist). split; [exact R |]. split; [rewrite G', G; reflexivity |]. split.
  { exists hist; split; [| reflexivity]; cbn [valid_run hist]; split; [exact Logic.I |]; split; [cbn; lia |]; repeat (split; [cbv [step make_keys new_tx_builder]; cbn; lia |]); exact Logic.I. }
  split; [cbn; lia |]. split; [reflexivity |]. apply (C69_total toy_hashes id_order); [exact toy_hashes_ok | exact id_runtime | | intros k [<- | []]; exact K].
  split; [|split; [split; [constructor | cbn; lia] | exact Logic.I]]. unfold body_ok.
  set (B := Body _). assert (EB : B = {| Inputs := [ex_input 5000000]; Outputs := []; Fee := 0; TTL := 5000; AuxHash := [] |}) by reflexivity. clearbody B. subst B. cbn [Inputs Outputs Fee TTL AuxHash].
  split; [|split; [constructor | split; [vm_compute; reflexivity | split; [vm_compute; reflexivity | split; [lia | split; [lia | split; [intros x [] | vm_compute; reflexivity]]]]]]].
  constructor; [|constructor]. split; [intros x I; apply repeat_spec in I; subst x; lia |]. split; [vm_compute; reflexivity | cbn; lia].
Qed.

(** ** C74: harden *)
Theorem C74_harden_partial : forall n, 0 <= n < 2 ^ 31 -> harden n = 2 ^ 31 + n /\ isHardened (harden n) = true.
Proof.
  intros n N. assert (E : harden n = 2 ^ 31 + n) by (unfold harden, u32, u64; rewrite (Z.mod_small _ (2 ^ 64)) by lia; rewrite Z.mod_small by lia; reflexivity). split; [exact E |]. rewrite E. unfold isHardened. apply Z.leb_le. lia.
Qed.
Print Assumptions C74_harden_partial.
(** Beyond, the index is not hardened: exactly the arguments whose bit 31 is clear give hardened indices. *)
Theorem C74_exact : forall n, 0 <= n < 2 ^ 64 -> isHardened (harden n) = negb (Z.testbit n 31).
Proof.
  intros n N. unfold isHardened, harden, u32, u64.
  replace (((2147483648 + n) mod 2 ^ 64) mod 2 ^ 32) with ((2 ^ 31 + n) mod 2 ^ 32).
  2:{ change (2 ^ 64) with (2 ^ 32 * 2 ^ 32). rewrite Z.rem_mul_r by lia. rewrite Z.mul_comm, Z.mod_add, Z.mod_mod by lia. reflexivity. }
  assert (T : Z.testbit n 31 = negb (n mod 2 ^ 32 <? 2 ^ 31)).
  { rewrite <- (Z.mod_pow2_bits_low n 32 31) by lia. pose proof (Z.mod_pos_bound n (2 ^ 32) ltac:(lia)) as B. set (m := n mod 2 ^ 32) in *. clearbody m.
    rewrite Z.testbit_eqb by lia. destruct (Z.ltb_spec m (2 ^ 31)).
    - rewrite Z.div_small by lia. reflexivity.
    - replace (m / 2 ^ 31) with 1 by (apply Z.div_unique with (m - 2 ^ 31); lia). reflexivity. }
  rewrite T, negb_involutive. rewrite Zplus_mod. pose proof (Z.mod_pos_bound n (2 ^ 32) ltac:(lia)) as B. set (m := n mod 2 ^ 32) in *. clearbody m. rewrite (Z.mod_small (2 ^ 31)) by lia.
  change 2147483648 with (2 ^ 31). destruct (Z.ltb_spec m (2 ^ 31)).
  - rewrite Z.mod_small by lia. apply Z.leb_le. lia.
  - replace ((2 ^ 31 + m) mod 2 ^ 32) with (m - 2 ^ 31) by (apply Z.mod_unique with 1; lia). apply Z.leb_gt. lia.
Qed.
Print Assumptions C74_exact.
(** The index for every argument, and which arguments share it. *)
Theorem C74_value : forall n, 0 <= n < 2 ^ 64 -> harden n = (2 ^ 31 + n) mod 2 ^ 32 /\ forall m, 0 <= m < 2 ^ 64 -> (harden m = harden n <-> m mod 2 ^ 32 = n mod 2 ^ 32).
Proof.
  assert (V : forall n, harden n = (2 ^ 31 + n) mod 2 ^ 32).
  { intros n. unfold harden, u32, u64. change (2 ^ 64) with (2 ^ 32 * 2 ^ 32). rewrite Z.rem_mul_r by lia. rewrite Z.mul_comm, Z.mod_add, Z.mod_mod by lia. reflexivity. }
  intros n _. split; [apply V |]. intros m _. rewrite !V. split; intros E.
  - replace m with ((2 ^ 31 + m) - 2 ^ 31) by ring. replace n with ((2 ^ 31 + n) - 2 ^ 31) by ring. rewrite Zminus_mod, E, <- Zminus_mod. reflexivity.
  - rewrite <- Z.add_mod_idemp_r, E, Z.add_mod_idemp_r by lia. reflexivity.
Qed.
Print Assumptions C74_value.
Theorem C74_refuted : exists n, 0 <= n < 2 ^ 64 /\ isHardened (harden n) = false /\ harden n = harden (n + 2 ^ 32).
Proof. exists (2 ^ 31 + 44). split; [lia |]. split; reflexivity. Qed.
Print Assumptions C74_refuted.
Example C74_example : harden 1852 = 2147485500 /\ isHardened (harden 1852) = true.
Proof. split; reflexivity. Qed.
