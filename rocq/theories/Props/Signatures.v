(** What signatures, nonces and derived keys are worth: a signature fits one message (C96), nonces differ (C97), sibling keys differ (C98),
    and no derived key is degenerate (C99); all up to congruences and equalities of hash values that are named in the statements. *)
From Verif.Model Require Import Base Limb EdwardsTable EdwardsCode Edwards Network Address Tx Builder Bip32 Keys.
From Verif.Spec Require Import CborSpec TxSpec EdSpec Bip32Spec WindowSpec.
From Coq Require Import Znumtheory.
From Verif.Proofs Require Import Util RadixFacts ScalarFacts FieldFacts CurveFacts GroupFacts FieldEl FieldBytes PointFacts TableFacts ScalarMult TxFacts HeapFacts HeapProps PrimeOrder Bip32Facts KeyFacts.
From Verif.Props Require Import Tx Edwards Builder Bip32 ScalarExact.
Open Scope Z_scope.
#[local] Opaque zmul.

Lemma public_inj n m : public_of n = public_of m <-> n mod ell = m mod ell.
Proof. rewrite <- base_mult_eq. split; [|intros E; exact (f_equal encode_point E)]. intros E. apply C52_injective in E; [exact E | apply zmul_on; exact base_on ..]. Qed.
Lemma mod_eq_divide a b : a mod ell = b mod ell <-> (ell | a - b).
Proof.
  pose proof ell_range as ER. split; intros Q.
  - apply Z.mod_divide; [lia |]. rewrite Zminus_mod, Q, Z.sub_diag. apply Z.mod_0_l. lia.
  - destruct Q as [q Q]. replace a with (b + q * ell) by lia. apply Z.mod_add. lia.
Qed.
(** Which messages a signature fits, for every key. *)
Lemma fits (H : Hashes) k m sig : hashes_ok -> bytes_len 96 k -> Sign k m = Ok sig -> forall m',
  verifies sha512 (pk_of k) m' sig <->
  (ell | le_value (sha512 (firstn 32 sig ++ pk_of k ++ m)) * le_value (kL k) - le_value (sha512 (firstn 32 sig ++ pk_of k ++ m')) * effective (le_value (kL k))).
Proof.
  intros HO K E m'. pose proof (Sign_spec k m HO K) as S. cbv zeta in S. rewrite S in E. apply Ok_inj in E. subst sig. clear S. pose proof ell_range as ER.
  set (r := le_value (sha512 (kR k ++ m)) mod ell) in *. set (hh := sha512 (public_of r ++ pk_of k ++ m)) in *. set (a := le_value (kL k)) in *. set (s := (le_value hh mod ell * a + r) mod ell) in *.
  assert (LR : length (public_of r) = 32%nat) by apply encode_bytes. assert (RS : 0 <= s < ell) by (apply Z.mod_pos_bound; lia).
  assert (F : firstn 32 (public_of r ++ le32 s) = public_of r) by (rewrite firstn_app, LR, Nat.sub_diag, firstn_O, app_nil_r, firstn_all2 by lia; reflexivity).
  assert (T : skipn 32 (public_of r ++ le32 s) = le32 s) by (rewrite skipn_app, LR, Nat.sub_diag, skipn_all2 by lia; reflexivity).
  rewrite F. fold hh. assert (PK : pk_of k = encode_point (zmul (effective a) base_point)) by exact (pk_of_gen k K).
  set (h' := sha512 (public_of r ++ pk_of k ++ m')).
  assert (EQ : zmul s base_point = padd (zmul r base_point) (zmul (le_value h') (zmul (effective a) base_point)) <-> s mod ell = (r + le_value h' * effective a) mod ell).
  { rewrite <- base_mult_eq, zmul_add, zmul_mul by exact base_on. reflexivity. }
  assert (ES : s mod ell = (r + le_value hh * a) mod ell).
  { unfold s. rewrite Z.mod_mod by lia. rewrite Z.add_comm, <- Z.add_mod_idemp_r, Z.mul_mod_idemp_l, Z.add_mod_idemp_r by lia. reflexivity. }
  assert (MAIN : verifies sha512 (pk_of k) m' (public_of r ++ le32 s) <-> s mod ell = (r + le_value h' * effective a) mod ell).
  { unfold verifies. rewrite F, T. fold h'. rewrite <- EQ. rewrite le_value_le32 by lia. split.
    - intros (A & Q & OA & EA & OQ & E_Q & _ & _ & V). rewrite PK in EA. apply C52_injective in EA; [| exact OA | apply zmul_on; exact base_on]. apply C52_injective in E_Q; [| exact OQ | apply zmul_on; exact base_on]. subst A Q. exact V.
    - intros V. exists (zmul (effective a) base_point), (zmul r base_point). split; [apply zmul_on; exact base_on |]. split; [symmetry; exact PK |]. split; [apply zmul_on; exact base_on |]. split; [reflexivity |].
      split; [rewrite app_length, LR, le32_length; reflexivity |]. split; [lia | exact V]. }
  rewrite MAIN, ES, mod_eq_divide. clear. generalize (le_value h') (le_value hh) (effective a). intros x y z. replace (r + y * a - (r + x * z)) with (y * a - x * z) by ring. reflexivity.
Qed.

(** ** C96: a signature fits only its message *)
Theorem C96_message : forall (H : Hashes) k m m', hashes_ok -> bytes_len 96 k -> le_value (kL k) <= limit16 -> ~ (ell | le_value (kL k)) -> exists pk c sig,
  Public k = Ok (pk ++ c) /\ bytes_len 32 pk /\ Sign k m = Ok sig /\
  let challenge := fun m => le_value (sha512 (firstn 32 sig ++ pk ++ m)) in
  (verifies sha512 pk m' sig <-> challenge m' mod ell = challenge m mod ell).
Proof.
  intros H k m m' HO K L N. pose proof (Sign_spec k m HO K) as S. cbv zeta in S. exists (pk_of k), (chain k). eexists. split; [apply Public_eq; exact K |]. split; [exact (pk_of_ok k K) |]. split; [exact S |].
  cbv zeta. rewrite (fits H k m _ HO K S m'). set (sig := _ ++ le32 _). clearbody sig. destruct (kL_ok k K) as [LB LL]. pose proof (le_value_pow _ 32 LB LL) as LR. rewrite effective_small by (rewrite limit_16; lia). clear S LB LL LR L. generalize dependent (le_value (kL k)). intros v N.
  generalize (le_value (sha512 (firstn 32 sig ++ pk_of k ++ m))) (le_value (sha512 (firstn 32 sig ++ pk_of k ++ m'))). intros x y. replace (x * v - y * v) with ((x - y) * v) by ring.
  assert (SW : y mod ell = x mod ell <-> x mod ell = y mod ell) by (split; intros Q; symmetry; exact Q). rewrite SW, mod_eq_divide. split.
  - intros D. apply prime_mult in D; [| exact prime_ell]. destruct D as [D | D]; [exact D | contradiction].
  - intros D. apply Z.divide_mul_l. exact D.
Qed.
Print Assumptions C96_message.
(** A verifying signature with the same R is the one Sign returned: the second half cannot be changed. *)
Lemma verifies_unique h pk m s s' : bytes_len 64 s -> bytes_len 64 s' -> verifies h pk m s -> verifies h pk m s' -> firstn 32 s = firstn 32 s' -> s = s'.
Proof.
  intros [B L] [B' L'] (A & R & OA & EA & OR & E_R & _ & S & V) (A' & R' & OA' & EA' & OR' & E_R' & _ & S' & V') E. pose proof ell_range as ER.
  assert (A' = A) by (apply C52_injective; [exact OA' | exact OA | rewrite EA, EA'; reflexivity]). assert (R' = R) by (apply C52_injective; [exact OR' | exact OR | rewrite E_R, E_R', E; reflexivity]). subst A' R'.
  rewrite <- E, <- V in V'. apply base_mult_eq in V'.
  assert (T : forall l, bytes_ok l -> length l = 64%nat -> bytes_ok (skipn 32 l) /\ length (skipn 32 l) = 32%nat).
  { intros l BL LL. split; [|rewrite skipn_length; lia]. rewrite <- (firstn_skipn 32 l) in BL. apply Forall_app in BL. apply BL. }
  destruct (T s B L) as [B1 L1], (T s' B' L') as [B2 L2]. pose proof (le_value_pow _ 32 B1 L1). pose proof (le_value_pow _ 32 B2 L2). rewrite !Z.mod_small in V' by lia.
  rewrite <- (firstn_skipn 32 s), <- (firstn_skipn 32 s'), E. f_equal. rewrite <- (le32_le_value _ B1 L1), <- (le32_le_value _ B2 L2), V'. reflexivity.
Qed.
Theorem C96_unique : forall (H : Hashes) k m, hashes_ok -> bytes_len 96 k -> le_value (kL k) <= limit16 -> exists pk c sig,
  Public k = Ok (pk ++ c) /\ bytes_len 32 pk /\ Sign k m = Ok sig /\
  forall sig', bytes_len 64 sig' -> firstn 32 sig' = firstn 32 sig -> (verifies sha512 pk m sig' <-> sig' = sig).
Proof.
  intros H k m HO K L. pose proof (Sign_spec k m HO K) as S. cbv zeta in S. exists (pk_of k), (chain k). eexists. split; [apply Public_eq; exact K |]. split; [exact (pk_of_ok k K) |]. split; [exact S |].
  assert (V := Sign_verifies k m _ HO K ltac:(rewrite limit_16; exact L) S). pose proof (Sign_shape k m _ S) as SH. set (sig := _ ++ le32 _) in *. clearbody sig. intros sig' B E. split.
  - intros V'. apply (verifies_unique sha512 (pk_of k) m); assumption.
  - intros ->. exact V.
Qed.
Print Assumptions C96_unique.

(** ** C99: no derived key is degenerate *)
Lemma multiple_of_8 v : v mod 8 = 0 -> 2 ^ 254 <= v < 2 ^ 255 -> ~ (ell | v).
Proof.
  intros M R D. assert (L : 2 ^ 252 < ell) by (vm_compute; reflexivity). apply Z.mod_divide in M; [|lia]. destruct M as [q ->]. apply prime_mult in D; [| exact prime_ell]. destruct D as [D | D]; apply Z.divide_pos_le in D; lia.
Qed.
Theorem C99_order : forall (H : Hashes) root n k, hashes_ok -> root_key root -> derived root n k -> Z.of_nat n < 2 ^ 26 -> exists c A,
  Public k = Ok (encode_point A ++ c) /\ on_curve A /\ A <> pzero /\ forall x, zmul x A = pzero <-> (ell | x).
Proof.
  intros H root n k HO R D N. destruct (C39_paths H root n k HO R D N) as (K & M & B). pose proof (multiple_of_8 _ M B) as ND. pose proof limit_255 as LI.
  exists (chain k), (zmul (le_value (kL k)) base_point). rewrite (Public_eq k K), (pk_of_exact k K) by lia. split; [reflexivity |]. split; [apply zmul_on; exact base_on |].
  split; [intros Q; apply ND; exact (proj1 (base_order _) Q) |]. intros x. rewrite <- zmul_mul by exact base_on. rewrite base_order. generalize dependent (le_value (kL k)). intros v _ _ NV. split.
  - intros Q. apply prime_mult in Q; [| exact prime_ell]. destruct Q as [Q | Q]; [exact Q | contradiction].
  - intros Q. apply Z.divide_mul_l. exact Q.
Qed.
Print Assumptions C99_order.
(** So the hypotheses of C96 hold for every key on a derivation path. *)
Theorem C96_derived : forall (H : Hashes) root n k m m', hashes_ok -> root_key root -> derived root n k -> Z.of_nat n < 2 ^ 26 -> exists pk c sig,
  Public k = Ok (pk ++ c) /\ bytes_len 32 pk /\ Sign k m = Ok sig /\
  let challenge := fun m => le_value (sha512 (firstn 32 sig ++ pk ++ m)) in
  (verifies sha512 pk m' sig <-> challenge m' mod ell = challenge m mod ell).
Proof.
  intros H root n k m m' HO R D N. destruct (C39_paths H root n k HO R D N) as (K & M & B). pose proof limit_255 as LI. rewrite limit_16 in LI. apply (C96_message H k m m' HO K); [lia | exact (multiple_of_8 _ M B)].
Qed.
Print Assumptions C96_derived.

(** ** C102: a witness fits only its own transaction body *)
(** Each witness of a built transaction is accepted for another body exactly if the two challenges agree modulo the group order; and
    bodies that differ in an input, output, fee, ttl or auxiliary data hash have different encodings. *)
Theorem C102_witness : forall (H : Hashes) (MO : MapOrder) w b w' t' B s', hashes_ok -> @reachable (tx_crypto H) MO w -> (b < nbuilders w)%nat ->
  (forall k, In k (builder_keys w b) -> bytes_len 96 k /\ le_value (kL k) < 2 ^ 255 /\ ~ (ell | le_value (kL k))) -> @build (tx_crypto H) MO w b = (w', Ok t') ->
  let A := Body (load w' t') in body_ok A -> body_ok B -> body_marshal B = Ok s' ->
  exists s, body_marshal A = Ok s /\
    Forall2 (fun k x => VKey x = public_of (le_value (kL k)) /\
      let challenge := fun m => le_value (sha512 (firstn 32 (Signature x) ++ VKey x ++ m)) in
      (verifies sha512 (VKey x) (blake2b_256 s') (Signature x) <-> challenge (blake2b_256 s') mod ell = challenge (blake2b_256 s) mod ell))
      (builder_keys w b) (Witness (load w' t')) /\
    (s = s' -> map (fun i => (TxHash i, Index i)) (Inputs A) = map (fun i => (TxHash i, Index i)) (Inputs B) /\
      map (fun o => (addr_bytes (OutAddress o), OutAmount o)) (Outputs A) = map (fun o => (addr_bytes (OutAddress o), OutAmount o)) (Outputs B) /\
      Fee A = Fee B /\ TTL A = TTL B /\ AuxHash A = AuxHash B).
Proof.
  intros H MO w b w' t' B s' HO R Hb KS E A KA KB EB. destruct (C24_build (tx_crypto H) MO w b w' t' R Hb E) as (s & Es & F & _). exists s. fold A in Es. split; [exact Es |]. split.
  - revert KS. induction F as [|k x ks xs [P S] _ IH]; intros KS; constructor.
    + destruct (KS k (or_introl eq_refl)) as (K & U & N). cbn [key_public key_sign blake2b256 tx_crypto] in P, S. rewrite (key_public_eq k K) in P. apply Ok_inj in P. pose proof limit_255 as LI. pose proof limit_16 as L16.
      split; [rewrite <- P; apply pk_of_exact; [exact K | lia] |]. destruct (C96_message H k (blake2b_256 s) (blake2b_256 s') HO K ltac:(lia) N) as (pk & c & sig & P1 & P2 & P3 & Q).
      rewrite (Public_eq k K) in P1. apply Ok_inj in P1. rewrite S in P3. apply Ok_inj in P3. subst sig.
      assert (EP : pk = pk_of k). { pose proof (proj2 (pk_of_ok k K)) as L1. destruct P2 as [_ L2]. apply (f_equal (firstn 32)) in P1. rewrite !firstn_app, L1, L2, Nat.sub_diag, !firstn_O, !app_nil_r, !firstn_all2 in P1 by lia. symmetry. exact P1. }
      subst pk. rewrite P in Q. cbv zeta in Q |- *. exact Q.
    + apply IH. intros k' I. apply KS. right. exact I.
  - intros <-. exact (C22_bytes A B s KA KB Es EB).
Qed.
Print Assumptions C102_witness.

(** ** C97: nonces *)
Theorem C97_nonce : forall (H : Hashes) k1 k2 m1 m2, hashes_ok -> bytes_len 96 k1 -> bytes_len 96 k2 -> exists s1 s2, Sign k1 m1 = Ok s1 /\ Sign k2 m2 = Ok s2 /\
  (firstn 32 s1 = firstn 32 s2 <-> le_value (sha512 (kR k1 ++ m1)) mod ell = le_value (sha512 (kR k2 ++ m2)) mod ell).
Proof.
  intros H k1 k2 m1 m2 HO K1 K2. pose proof (Sign_spec k1 m1 HO K1) as S1. pose proof (Sign_spec k2 m2 HO K2) as S2. cbv zeta in S1, S2. eexists. eexists. split; [exact S1 |]. split; [exact S2 |]. pose proof ell_range as ER.
  assert (F : forall n s, firstn 32 (public_of n ++ s) = public_of n). { intros n s. assert (LR : length (public_of n) = 32%nat) by apply encode_bytes. rewrite firstn_app, LR, Nat.sub_diag, firstn_O, app_nil_r, firstn_all2 by lia. reflexivity. }
  rewrite !F, public_inj, !Z.mod_mod by lia. reflexivity.
Qed.
Print Assumptions C97_nonce.
(** Why it matters: two signatures of one key with the same nonce and different challenges give away its scalar. *)
Theorem C97_leak : forall (H : Hashes) k m1 m2, hashes_ok -> bytes_len 96 k -> exists pk c s1 s2, Public k = Ok (pk ++ c) /\ bytes_len 32 pk /\ Sign k m1 = Ok s1 /\ Sign k m2 = Ok s2 /\
  (firstn 32 s1 = firstn 32 s2 ->
   ((le_value (sha512 (firstn 32 s1 ++ pk ++ m1)) - le_value (sha512 (firstn 32 s2 ++ pk ++ m2))) * le_value (kL k)) mod ell = (le_value (skipn 32 s1) - le_value (skipn 32 s2)) mod ell).
Proof.
  intros H k m1 m2 HO K. pose proof (Sign_spec k m1 HO K) as S1. pose proof (Sign_spec k m2 HO K) as S2. cbv zeta in S1, S2. pose proof ell_range as ER.
  exists (pk_of k), (chain k). eexists. eexists. split; [apply Public_eq; exact K |]. split; [exact (pk_of_ok k K) |]. split; [exact S1 |]. split; [exact S2 |]. clear S1 S2.
  assert (F : forall n s, firstn 32 (public_of n ++ s) = public_of n /\ skipn 32 (public_of n ++ s) = s).
  { intros n s. assert (LR : length (public_of n) = 32%nat) by apply encode_bytes. rewrite firstn_app, skipn_app, LR, Nat.sub_diag, firstn_O, app_nil_r, firstn_all2, skipn_all2 by lia. split; reflexivity. }
  rewrite !(fun n s => proj1 (F n s)), !(fun n s => proj2 (F n s)), public_inj, !Z.mod_mod by lia. intros E. rewrite E. set (r := le_value (sha512 (kR k ++ m2)) mod ell).
  generalize (le_value (sha512 (public_of r ++ pk_of k ++ m1))) (le_value (sha512 (public_of r ++ pk_of k ++ m2))) (le_value (kL k)). intros x y v. clearbody r. clear - ER.
  rewrite !le_value_le32 by (pose proof (Z.mod_pos_bound (x mod ell * v + r) ell); pose proof (Z.mod_pos_bound (y mod ell * v + r) ell); lia).
  rewrite <- Zminus_mod. replace (x mod ell * v + r - (y mod ell * v + r)) with (x mod ell * v - y mod ell * v) by ring. rewrite Zminus_mod, !Z.mul_mod_idemp_l, <- Zminus_mod by lia. f_equal. ring.
Qed.
Print Assumptions C97_leak.

(** ** C98: siblings *)
Lemma firstn_hmac (H : Hashes) c m : hashes_ok -> bytes_ok (firstn 28 (hmac_sha512 c m)) /\ length (firstn 28 (hmac_sha512 c m)) = 28%nat.
Proof. intros HO. destruct (hmac_len c m HO) as [B L]. split; [|rewrite firstn_length; lia]. rewrite <- (firstn_skipn 28 (hmac_sha512 c m)) in B. apply Forall_app in B. apply B. Qed.
Theorem C98_siblings : forall (H : Hashes) k i j, hashes_ok -> bytes_len 96 k -> le_value (kL k) < 2 ^ 255 -> 0 <= i < 2 ^ 32 -> 0 <= j < 2 ^ 32 -> exists pk ki kj pi pj,
  publicKey k = Ok pk /\ Derive k i = Ok ki /\ Derive k j = Ok kj /\ publicKey ki = Ok pi /\ publicKey kj = Ok pj /\
  (pi = pj <-> firstn 28 (hmac_sha512 (chain k) (message_Z pk k i)) = firstn 28 (hmac_sha512 (chain k) (message_Z pk k j))).
Proof.
  intros H k i j HO K R I J. pose proof limit_255 as LI. pose proof ell_range as ER. assert (L2 : 2 ^ 252 < ell) by (vm_compute; reflexivity).
  assert (C : forall x, 0 <= x < 2 ^ 32 -> Derive k x = Ok (derive hmac_sha512 (pk_of k) k x) /\ publicKey (derive hmac_sha512 (pk_of k) k x) = Ok (public_of (le_value (kL k) + 8 * le_value (firstn 28 (hmac_sha512 (chain k) (message_Z (pk_of k) k x)))))).
  { intros x X. split; [apply Derive_spec; assumption |]. pose proof (Derive_key k x HO K X) as K'. rewrite (publicKey_eq _ K'). f_equal. pose proof (zfirst_range (chain k) (message_Z (pk_of k) k x) HO) as ZR. destruct (kL_ok k K) as [LB LL]. pose proof (le_value_pow _ 32 LB LL) as LR.
    apply pk_val; [exact K' | | lia]. unfold derive. rewrite child_kL. apply Z.mod_small. lia. }
  destruct (C i I) as [D1 P1], (C j J) as [D2 P2]. exists (pk_of k). eexists. eexists. eexists. eexists. split; [apply publicKey_eq; exact K |]. split; [exact D1 |]. split; [exact D2 |]. split; [exact P1 |]. split; [exact P2 |]. clear C D1 P1 D2 P2.
  rewrite public_inj, mod_eq_divide. destruct (firstn_hmac H (chain k) (message_Z (pk_of k) k i) HO) as [B1 L1]. destruct (firstn_hmac H (chain k) (message_Z (pk_of k) k j) HO) as [B2 L2'].
  pose proof (zfirst_range (chain k) (message_Z (pk_of k) k i) HO) as Z1. pose proof (zfirst_range (chain k) (message_Z (pk_of k) k j) HO) as Z2.
  generalize dependent (firstn 28 (hmac_sha512 (chain k) (message_Z (pk_of k) k i))). generalize dependent (firstn 28 (hmac_sha512 (chain k) (message_Z (pk_of k) k j))). intros y By Ly Ry x Bx Lx Rx. split.
  - intros D. assert (E : le_value x = le_value y). { destruct (Z.eq_dec (le_value x) (le_value y)) as [E | NE]; [exact E |]. exfalso. apply Z.divide_abs_r in D. apply Z.divide_pos_le in D; lia. }
    apply (le_value_inj x y); [exact Bx | exact By | lia | exact E].
  - intros ->. rewrite Z.sub_diag. apply Z.divide_0_r.
Qed.
Print Assumptions C98_siblings.
(** Distinct indices give distinct messages, so equal public keys of siblings are a coincidence of two HMAC values; along derivation paths without restriction. *)
Theorem C98_derived : forall (H : Hashes) root n k i j, hashes_ok -> root_key root -> derived root n k -> Z.of_nat n < 2 ^ 26 -> 0 <= i < 2 ^ 32 -> 0 <= j < 2 ^ 32 -> i <> j -> exists pk ki kj pi pj,
  publicKey k = Ok pk /\ Derive k i = Ok ki /\ Derive k j = Ok kj /\ publicKey ki = Ok pi /\ publicKey kj = Ok pj /\ message_Z pk k i <> message_Z pk k j /\
  (pi = pj <-> firstn 28 (hmac_sha512 (chain k) (message_Z pk k i)) = firstn 28 (hmac_sha512 (chain k) (message_Z pk k j))).
Proof.
  intros H root n k i j HO R D N I J NE. destruct (C39_paths H root n k HO R D N) as (K & _ & B). destruct (C98_siblings H k i j HO K ltac:(lia) I J) as (pk & ki & kj & pi & pj & P & D1 & D2 & P1 & P2 & Q).
  exists pk, ki, kj, pi, pj. do 5 (split; [assumption |]). split; [|exact Q]. rewrite (publicKey_eq k K) in P. apply Ok_inj in P. subst pk.
  exact (proj1 (proj2 (C40_messages k i j _ _ _ _ K I J (messages_eq k i K I) (messages_eq k j K J)) NE)).
Qed.
Print Assumptions C98_derived.

Definition small_key : bytes := 8 :: repeat 0 95.
Example C96_example : @hashes_ok toy_hashes /\ bytes_len 96 small_key /\ le_value (kL small_key) <= limit16 /\ ~ (ell | le_value (kL small_key)) /\
  le_value (@sha512 toy_hashes (repeat 1 64 ++ [5])) mod ell <> le_value (@sha512 toy_hashes (repeat 1 64 ++ [6])) mod ell.
Proof.
  split; [exact toy_hashes_ok |]. split; [split; [|reflexivity]; apply Forall_forall; intros x X; destruct X as [<- | X]; [unfold is_byte; lia | apply repeat_spec in X; subst x; unfold is_byte; lia] |].
  split; [vm_compute; discriminate |]. split; [|vm_compute; discriminate]. change (le_value (kL small_key)) with 8. intros D. apply Z.divide_pos_le in D; [|lia]. revert D. vm_compute. intros D. apply D. reflexivity.
Qed.
(** With a constant hash function every signature fits every message and siblings coincide: the congruences cannot be dropped. *)
Example C96_constant : forall m m', le_value (@sha512 const_hashes m) mod ell = le_value (@sha512 const_hashes m') mod ell.
Proof. reflexivity. Qed.
Example C98_example : firstn 28 (@hmac_sha512 toy_hashes [1; 2] [3]) <> firstn 28 (@hmac_sha512 toy_hashes [1; 2] [4]).
Proof. vm_compute. discriminate. Qed.
(** The keys of C69's world meet the hypotheses of C102, and the same transaction with another ttl has another encoding. *)
Example C102_example : (forall k, In k (builder_keys C69_world 0) -> bytes_len 96 k /\ le_value (kL k) < 2 ^ 255 /\ ~ (ell | le_value (kL k))) /\
  let A := Body (builder_tx C69_world 0) in body_marshal A <> body_marshal {| Inputs := Inputs A; Outputs := Outputs A; Fee := Fee A; TTL := 5001; AuxHash := AuxHash A |}.
Proof.
  destruct C69_example as (_ & _ & _ & _ & E & K). rewrite E. split.
  - intros k I. destruct (K k I) as [K1 K2]. split; [exact K1 |]. split; [exact K2 |]. assert (ER : 0 < ell) by (vm_compute; reflexivity). intros D. apply Z.mod_divide in D; [| lia].
    destruct I as [<- | [<- | []]]; revert D; vm_compute; discriminate.
  - vm_compute. discriminate.
Qed.

(** ** C51 for two keys, exactly *)
(** Keys with one Public() have children with one Public() exactly when adding
    8 zL changes equally much about what the recoding loses of either scalar. *)
Theorem C51_same_exact : forall (H : Hashes) k1 k2 i k1' k2' pk c, hashes_ok -> bytes_len 96 k1 -> bytes_len 96 k2 -> 0 <= i < 2 ^ 31 ->
  Public k1 = Ok (pk ++ c) -> length pk = 32%nat -> Public k2 = Public k1 -> Derive k1 i = Ok k1' -> Derive k2 i = Ok k2' ->
  let v1 := le_value (kL k1) in let v2 := le_value (kL k2) in let z := le_value (firstn 28 (hmac_sha512 c (2 :: pk ++ le4 i))) in
  (Public k1' = Public k2' <-> lost16 (v1 + 8 * z) - lost16 v1 = lost16 (v2 + 8 * z) - lost16 v2).
Proof.
  intros H k1 k2 i k1' k2' pk c HO K1 K2 I P1 PL P2 D1 D2 v1 v2 z. pose proof ell_range as ER. assert (NH : hardened i = false) by (apply Z.leb_gt; lia).
  assert (S2 : forall k, bytes_len 96 k -> Public k = Ok (pk ++ c) -> pk_of k = pk /\ chain k = c).
  { intros k K P. rewrite (Public_eq k K) in P. apply Ok_inj in P. destruct (pk_of_ok k K) as [_ LK]. assert (Q : pk_of k = pk). { pose proof (f_equal (firstn 32) P) as P'. rewrite !firstn_app, LK, PL, Nat.sub_diag, !firstn_O, !app_nil_r, !firstn_all2 in P' by lia. exact P'. }
    rewrite Q in P. apply app_inv_head in P. split; assumption. }
  assert (Z1 : 0 <= z < 2 ^ 224) by (apply zfirst_range; exact HO).
  assert (G : forall k k', bytes_len 96 k -> Public k = Ok (pk ++ c) -> Derive k i = Ok k' ->
    let v := le_value (kL k) in 0 <= v < 2 ^ 256 /\ pk = public_of (v - lost16 v) /\ Public k' = Ok (public_of (v + 8 * z - lost16 (v + 8 * z)) ++ skipn 32 (hmac_sha512 c (3 :: pk ++ le4 i)))).
  { intros k k' K P D v. destruct (S2 k K P) as [EP EC]. destruct (kL_ok k K) as [LB LL]. pose proof (le_value_pow _ 32 LB LL) as R. change (256 ^ Z.of_nat 32) with (2 ^ 256) in R. fold v in R. split; [exact R |].
    split; [rewrite <- EP, (pk_of_gen k K); fold v; rewrite effective_lost; reflexivity |].
    rewrite (Derive_spec k i HO K ltac:(lia)) in D. apply Ok_inj in D. assert (K' : key96 k') by (subst k'; apply Derive_key; [exact HO | exact K | lia]).
    assert (CC : chain k' = skipn 32 (hmac_sha512 c (3 :: pk ++ le4 i))) by (subst k'; unfold derive; rewrite child_chain; unfold message_c; rewrite NH, EP, EC; reflexivity).
    assert (V : le_value (kL k') = (v + 8 * z) mod 2 ^ 256) by (subst k'; unfold derive; rewrite child_kL; unfold message_Z; rewrite NH, EP, EC; reflexivity).
    rewrite (Public_eq k' K'), CC, (pk_of_gen k' K'), V, effective_wrap by lia. reflexivity. }
  rewrite P1 in P2. destruct (G k1 k1' K1 P1 D1) as (R1 & E1 & Q1). destruct (G k2 k2' K2 P2 D2) as (R2 & E2 & Q2). fold v1 in R1, E1, Q1. fold v2 in R2, E2, Q2. rewrite Q1, Q2. clear G S2 Q1 Q2 D1 D2 P1 P2.
  assert (EM : (ell | (v1 - lost16 v1) - (v2 - lost16 v2))) by (apply mod_eq_divide, public_inj; congruence).
  set (p1 := public_of (v1 + 8 * z - lost16 (v1 + 8 * z))). set (p2 := public_of (v2 + 8 * z - lost16 (v2 + 8 * z))).
  transitivity (p1 = p2).
  { split; [| intros ->; reflexivity]. intros E. apply Ok_inj in E. apply app_inv_tail in E. exact E. }
  unfold p1, p2. rewrite public_inj, mod_eq_divide.
  destruct (lost_cases v1 ltac:(lia)) as (a1 & A1 & L1). destruct (lost_cases v2 ltac:(lia)) as (a2 & A2 & L2). destruct (lost_cases (v1 + 8 * z) ltac:(lia)) as (b1 & B1 & M1). destruct (lost_cases (v2 + 8 * z) ltac:(lia)) as (b2 & B2 & M2).
  rewrite L1, L2 in EM. rewrite L1, L2, M1, M2. split.
  - intros D. assert (D' : (ell | (b1 - a1 - (b2 - a2)) * 2 ^ 252)).
    { replace ((b1 - a1 - (b2 - a2)) * 2 ^ 252) with ((v1 - a1 * 2 ^ 252 - (v2 - a2 * 2 ^ 252)) - (v1 + 8 * z - b1 * 2 ^ 252 - (v2 + 8 * z - b2 * 2 ^ 252))) by ring. apply Z.divide_sub_r; assumption. }
    apply prime_mult in D'; [| exact prime_ell]. destruct D' as [D' | D'].
    + assert (X : b1 - a1 - (b2 - a2) = 0). { destruct (Z.eq_dec (b1 - a1 - (b2 - a2)) 0) as [X | X]; [exact X |]. exfalso. apply Z.divide_abs_r in D'. apply Z.divide_pos_le in D'; [|lia]. assert (2 ^ 252 < ell) by (vm_compute; reflexivity). lia. }
      nia.
    + exfalso. apply Z.mod_divide in D'; [|lia]. revert D'. vm_compute. discriminate.
  - intros D. replace (v1 + 8 * z - b1 * 2 ^ 252 - (v2 + 8 * z - b2 * 2 ^ 252)) with ((v1 - a1 * 2 ^ 252 - (v2 - a2 * 2 ^ 252)) - ((b1 * 2 ^ 252 - a1 * 2 ^ 252) - (b2 * 2 ^ 252 - a2 * 2 ^ 252))) by ring.
    rewrite D, Z.sub_diag, Z.sub_0_r. exact EM.
Qed.
Print Assumptions C51_same_exact.
Example C51_same_example : exists k1 k2 k1' k2' pk c, bytes_len 96 k1 /\ bytes_len 96 k2 /\ Public k1 = Ok (pk ++ c) /\ length pk = 32%nat /\ Public k2 = Public k1 /\ @Derive toy_hashes k1 7 = Ok k1' /\ @Derive toy_hashes k2 7 = Ok k2'.
Proof.
  destruct (C51_refuted toy_hashes (repeat 3 32) 7 toy_hashes_ok ltac:(split; [apply Forall_forall; intros x X; apply repeat_spec in X; subst x; unfold is_byte; lia | reflexivity]) ltac:(lia)) as (k1 & k2 & K1 & K2 & E & _).
  exists k1, k2. eexists. eexists. exists (pk_of k1), (chain k1). split; [exact K1 |]. split; [exact K2 |]. split; [apply Public_eq; exact K1 |]. split; [apply (pk_of_ok k1 K1) |]. split; [symmetry; exact E |].
  split; (apply Derive_spec; [exact toy_hashes_ok | assumption | lia]).
Qed.
