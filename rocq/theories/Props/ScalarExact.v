(** C49, C41, C50, C51, C69 for every 256-bit scalar: what is computed above the limit of the radix-16 recoding. *)
From Verif.Model Require Import Base Limb EdwardsTable EdwardsCode Edwards Network Address Tx Builder Bip32 Keys.
From Verif.Spec Require Import CborSpec TxSpec EdSpec Bip32Spec WindowSpec.
From Coq Require Import Znumtheory.
From Verif.Proofs Require Import Util RadixFacts ScalarFacts FieldFacts CurveFacts GroupFacts FieldEl FieldBytes PointFacts TableFacts ScalarMult TxFacts HeapFacts HeapProps PrimeOrder Bip32Facts KeyFacts.
From Verif.Props Require Import Tx Edwards Builder Bip32.
Open Scope Z_scope.
#[local] Opaque zmul.

Lemma top_digit_16 n : top_digit n = top_digit16 n. Proof. reflexivity. Qed.
Lemma limit_16 : digit_limit = limit16. Proof. vm_compute. reflexivity. Qed.
Lemma effective_lost n : effective n = n - lost16 n.
Proof. unfold effective, lost16. rewrite top_digit_16. change top16 with (2 ^ 252). destruct (8 <? top_digit16 n); ring. Qed.

(** C49 for every scalar of 32 bytes: the multiple that is computed, and the scalars for which it is the right one. *)
Theorem C49_exact : forall a, bytes32 a ->
  repr_ext (GeScalarMultBase a) (zmul (le_value a - lost16 (le_value a)) base_point) /\
  (repr_ext (GeScalarMultBase a) (zmul (le_value a) base_point) <-> le_value a <= limit16).
Proof.
  intros a [B L]. pose proof (GeScalarMultBase_gen a B L) as G. rewrite <- effective_lost. split; [exact G |].
  pose proof (le_value_pow _ 32 B L) as R. change (256 ^ Z.of_nat 32) with (2 ^ 256) in R. rewrite <- limit_16, <- (effective_exact _ R). generalize dependent (GeScalarMultBase a). intros g G. split.
  - intros Q. exact (C48_functional _ _ _ G Q).
  - intros <-. exact G.
Qed.
Print Assumptions C49_exact.
(** C41. Full statement: [Public k = Ok (public_of (le_value (kL k)) ++ chain k)]; the result for every key. *)
Theorem C41_all : forall k, bytes_len 96 k -> Public k = Ok (public_of (le_value (kL k) - lost16 (le_value (kL k))) ++ chain k).
Proof. intros k K. rewrite (Public_eq k K), (pk_of_gen k K), effective_lost. reflexivity. Qed.
Print Assumptions C41_all.

(** C50 for every key: the signature verifies exactly when the public key is the right one, or the challenge is a multiple of the order. *)
Theorem C50_exact : forall (H : Hashes) k m, hashes_ok -> bytes_len 96 k -> exists pk c sig,
  Public k = Ok (pk ++ c) /\ bytes_len 32 pk /\ Sign k m = Ok sig /\ bytes_len 64 sig /\
  (verifies sha512 pk m sig <-> le_value (kL k) <= limit16 \/ (ell | le_value (sha512 (firstn 32 sig ++ pk ++ m)))).
Proof.
  intros H k m HO K. pose proof (Sign_spec k m HO K) as S. cbv zeta in S. pose proof ell_range as ER.
  set (r := le_value (sha512 (kR k ++ m)) mod ell) in *. set (hh := sha512 (public_of r ++ pk_of k ++ m)) in *. set (a := le_value (kL k)) in *. set (s := (le_value hh mod ell * a + r) mod ell) in *.
  assert (LR : length (public_of r) = 32%nat) by apply encode_bytes. assert (RS : 0 <= s < ell) by (apply Z.mod_pos_bound; lia).
  assert (F : firstn 32 (public_of r ++ le32 s) = public_of r) by (rewrite firstn_app, LR, Nat.sub_diag, firstn_O, app_nil_r, firstn_all2 by lia; reflexivity).
  assert (T : skipn 32 (public_of r ++ le32 s) = le32 s) by (rewrite skipn_app, LR, Nat.sub_diag, skipn_all2 by lia; reflexivity).
  exists (pk_of k), (chain k), (public_of r ++ le32 s). split; [apply Public_eq; exact K |]. split; [exact (pk_of_ok k K) |]. split; [exact S |].
  split; [exact (Sign_shape k m _ S) |]. rewrite F. fold hh.
  destruct (kL_ok k K) as [LB LL]. pose proof (le_value_pow _ 32 LB LL) as R. change (256 ^ Z.of_nat 32) with (2 ^ 256) in R. fold a in R.
  assert (PK : pk_of k = encode_point (zmul (effective a) base_point)) by exact (pk_of_gen k K).
  assert (EQ : forall h, zmul s base_point = padd (zmul r base_point) (zmul h (zmul (effective a) base_point)) <-> s mod ell = (r + h * effective a) mod ell).
  { intros h. rewrite <- base_mult_eq, zmul_add, zmul_mul by exact base_on. reflexivity. }
  assert (ES : s mod ell = (r + le_value hh * a) mod ell).
  { unfold s. rewrite Z.mod_mod by lia. rewrite Z.add_comm, <- Z.add_mod_idemp_r, Z.mul_mod_idemp_l, Z.add_mod_idemp_r by lia. reflexivity. }
  assert (MAIN : verifies sha512 (pk_of k) m (public_of r ++ le32 s) <-> s mod ell = (r + le_value hh * effective a) mod ell).
  { unfold verifies. rewrite F, T. fold hh. rewrite <- EQ. rewrite le_value_le32 by lia. split.
    - intros (A & Q & OA & EA & OQ & E_Q & _ & _ & V). rewrite PK in EA. apply C52_injective in EA; [| exact OA | apply zmul_on; exact base_on]. apply C52_injective in E_Q; [| exact OQ | apply zmul_on; exact base_on]. subst A Q. exact V.
    - intros V. exists (zmul (effective a) base_point), (zmul r base_point). split; [apply zmul_on; exact base_on |]. split; [symmetry; exact PK |]. split; [apply zmul_on; exact base_on |]. split; [reflexivity |].
      split; [rewrite app_length, LR, le32_length; reflexivity |]. split; [lia | exact V]. }
  rewrite MAIN, ES. rewrite <- limit_16, <- (effective_exact _ R), base_mult_eq. clear - ER. set (h := le_value hh). clearbody h a r. generalize (effective a). intros e. split.
  - intros Q. assert (D : (ell | h * (e - a))). { apply Z.mod_divide; [lia |]. replace (h * (e - a)) with ((r + h * e) - (r + h * a)) by ring. rewrite Zminus_mod, Q, Z.sub_diag. apply Z.mod_0_l. lia. }
    apply prime_mult in D; [| exact prime_ell]. destruct D as [D | D]; [right; exact D | left]. apply Z.mod_divide in D; [|lia]. replace e with (e - a + a) by ring. rewrite <- Z.add_mod_idemp_l, D by lia. reflexivity.
  - intros [Q | D].
    + rewrite <- (Z.add_mod_idemp_r r (h * a)), <- (Z.add_mod_idemp_r r (h * e)) by lia. rewrite <- (Z.mul_mod_idemp_r h a), <- (Z.mul_mod_idemp_r h e), Q by lia. reflexivity.
    + destruct D as [q ->]. replace (r + q * ell * a) with (r + (q * a) * ell) by ring. replace (r + q * ell * e) with (r + (q * e) * ell) by ring. rewrite !Z.mod_add by lia. reflexivity.
Qed.
Print Assumptions C50_exact.

(** ** C51 *)
Lemma top_bounds n : 0 <= n < 2 ^ 256 + 2 ^ 228 -> 0 <= top_digit16 n <= 16.
Proof.
  intros R. unfold top_digit16. set (c := 0x888888888888888888888888888888888888888888888888888888888888888). assert (C : 0 <= c < 2 ^ 252 - 2 ^ 228) by (vm_compute; split; [discriminate | reflexivity]). clearbody c.
  split; [apply Z.div_pos; lia |]. apply Z.lt_succ_r. apply Z.div_lt_upper_bound; lia.
Qed.
Lemma lost_cases n : 0 <= n < 2 ^ 256 + 2 ^ 228 -> exists t, 0 <= t <= 16 /\ lost16 n = t * 2 ^ 252.
Proof.
  intros R. pose proof (top_bounds n R) as B. unfold lost16. destruct (8 <? top_digit16 n); [exists (top_digit16 n); split; [exact B | ring] | exists 0; split; [lia | ring]].
Qed.
Lemma lost_mod m n : 0 <= m < 2 ^ 256 + 2 ^ 228 -> 0 <= n < 2 ^ 256 + 2 ^ 228 -> (lost16 m mod ell = lost16 n mod ell <-> lost16 m = lost16 n).
Proof.
  intros M N. split; [|intros ->; reflexivity]. destruct (lost_cases m M) as (t & T & ->). destruct (lost_cases n N) as (u & U & ->). intros E. pose proof ell_range as ER.
  assert (D : (ell | (t - u) * 2 ^ 252)). { apply Z.mod_divide; [lia |]. rewrite Z.mul_sub_distr_r, Zminus_mod, E, Z.sub_diag. apply Z.mod_0_l. lia. }
  apply prime_mult in D; [| exact prime_ell]. destruct D as [D | D].
  - destruct (Z.eq_dec t u) as [-> | NE]; [reflexivity |]. exfalso. apply Z.divide_abs_r in D. apply Z.divide_pos_le in D; [|lia]. assert (2 ^ 252 < ell) by (vm_compute; reflexivity). lia.
  - exfalso. apply Z.mod_divide in D; [|lia]. revert D. vm_compute. discriminate.
Qed.
Lemma effective_wrap u : 0 <= u < 2 ^ 256 + 2 ^ 228 -> effective (u mod 2 ^ 256) = u - lost16 u.
Proof.
  intros R. destruct (Z.lt_ge_cases u (2 ^ 256)) as [L | L]; [rewrite Z.mod_small by lia; apply effective_lost |].
  rewrite <- (Z.mod_unique_pos u (2 ^ 256) 1 (u - 2 ^ 256)) by lia. pose proof limit_255 as LI. rewrite effective_small by lia.
  assert (T : top_digit16 u = 16). { unfold top_digit16. set (c := 0x888888888888888888888888888888888888888888888888888888888888888). assert (C : 0 <= c < 2 ^ 252 - 2 ^ 228) by (vm_compute; split; [discriminate | reflexivity]). clearbody c. symmetry. apply (Z.div_unique_pos _ _ 16 (u + c - 2 ^ 256)); lia. }
  unfold lost16. rewrite T. change (8 <? 16) with true. lia.
Qed.
(** C51. Full statement: for every key and soft index the public key of the child is the one computed from the public key of the
    parent, [follows]. Exactly: when adding 8 zL to the scalar changes nothing about what its recoding loses. *)
Theorem C51_exact : forall (H : Hashes) k i, hashes_ok -> bytes_len 96 k -> 0 <= i < 2 ^ 31 -> exists pk c k' pk' c',
  Public k = Ok (pk ++ c) /\ length pk = 32%nat /\ Derive k i = Ok k' /\ Public k' = Ok (pk' ++ c') /\ length pk' = 32%nat /\
  let v := le_value (kL k) in let z := le_value (firstn 28 (hmac_sha512 c (2 :: pk ++ le4 i))) in
  (follows hmac_sha512 pk c i pk' c' <-> lost16 (v + 8 * z) = lost16 v).
Proof.
  intros H k i HO K I. set (k' := derive hmac_sha512 (pk_of k) k i). assert (K' : key96 k') by (apply Derive_key; [exact HO | exact K | lia]).
  exists (pk_of k), (chain k), k', (pk_of k'), (chain k'). split; [apply Public_eq; exact K |]. split; [apply (pk_of_ok k K) |]. split; [apply Derive_spec; [exact HO | exact K | lia] |]. split; [apply Public_eq; exact K' |]. split; [apply (pk_of_ok k' K') |].
  intros v z. assert (NH : hardened i = false) by (apply Z.leb_gt; lia). destruct (kL_ok k K) as [LB LL]. pose proof (le_value_pow _ 32 LB LL) as R. change (256 ^ Z.of_nat 32) with (2 ^ 256) in R. fold v in R.
  assert (ZR : 0 <= z < 2 ^ 224) by (apply zfirst_range; exact HO).
  assert (CC : chain k' = skipn 32 (hmac_sha512 (chain k) (3 :: pk_of k ++ le4 i))) by (unfold k', derive; rewrite child_chain; unfold message_c; rewrite NH; reflexivity).
  assert (V : le_value (kL k') = (v + 8 * z) mod 2 ^ 256) by (unfold k', derive; rewrite child_kL; unfold message_Z; rewrite NH; reflexivity).
  assert (P' : pk_of k' = public_of (v + 8 * z - lost16 (v + 8 * z))) by (rewrite (pk_of_gen k' K'), V, effective_wrap by lia; reflexivity).
  assert (P : pk_of k = public_of (v - lost16 v)) by (rewrite (pk_of_gen k K); fold v; rewrite effective_lost; reflexivity).
  unfold follows. fold z. rewrite P'. rewrite <- (lost_mod (v + 8 * z) v) by lia. pose proof ell_range as ER.
  transitivity ((v + 8 * z - lost16 (v + 8 * z)) mod ell = (v - lost16 v + 8 * z) mod ell).
  - rewrite <- base_mult_eq. rewrite (zmul_add (v - lost16 v)) by exact base_on. split.
    + intros (A & OA & EA & E & _). rewrite P in EA. apply C52_injective in EA; [| exact OA | apply zmul_on; exact base_on]. subst A. apply C52_injective in E; [exact E | apply zmul_on; exact base_on |]. rewrite <- zmul_add by exact base_on. apply zmul_on. exact base_on.
    + intros E. exists (zmul (v - lost16 v) base_point). split; [apply zmul_on; exact base_on |]. split; [symmetry; exact P |]. split; [exact (f_equal encode_point E) | exact CC].
  - clear - ER. generalize (lost16 (v + 8 * z)), (lost16 v). intros x y. split; intros E.
    + replace x with (v + 8 * z - (v + 8 * z - x)) by ring. rewrite Zminus_mod, E, <- Zminus_mod. f_equal. ring.
    + rewrite Zminus_mod, E, <- Zminus_mod. f_equal. ring.
Qed.
Print Assumptions C51_exact.
Example C51_exact_examples : lost16 limit16 = 0 /\ lost16 (limit16 + 1) = 9 * 2 ^ 252 /\ lost16 (2 ^ 256 - 1) = 2 ^ 256 /\ lost16 (2 ^ 256 + 5) = 2 ^ 256.
Proof. vm_compute. repeat split. Qed.

(** ** C69: the witnesses of a built transaction, whatever the keys *)
Theorem C69_exact : forall (H : Hashes) (MO : MapOrder) w b w' t', hashes_ok -> @reachable (tx_crypto H) MO w -> (b < nbuilders w)%nat ->
  (forall k, In k (builder_keys w b) -> bytes_len 96 k) -> @build (tx_crypto H) MO w b = (w', Ok t') ->
  exists s, body_marshal (Body (load w' t')) = Ok s /\
    Forall2 (fun k x => let v := le_value (kL k) in
        VKey x = public_of (v - lost16 v) /\ bytes_len 64 (Signature x) /\
        (verifies sha512 (VKey x) (blake2b_256 s) (Signature x) <->
         v <= limit16 \/ (ell | le_value (sha512 (firstn 32 (Signature x) ++ VKey x ++ blake2b_256 s)))))
      (builder_keys w b) (Witness (load w' t')).
Proof.
  intros H MO w b w' t' HO R Hb KS E. destruct (C24_build (tx_crypto H) MO w b w' t' R Hb E) as (s & Es & F & _). exists s. split; [exact Es |]. revert KS. induction F as [|k x ks xs [P S] _ IH]; intros KS; constructor.
  - pose proof (KS k (or_introl eq_refl)) as K. cbn [key_public key_sign blake2b256 tx_crypto] in P, S. rewrite (key_public_eq k K) in P. apply Ok_inj in P. cbv zeta.
    destruct (C50_exact H k (blake2b_256 s) HO K) as (pk & c & sig & P1 & [_ L1] & S1 & SL & V). rewrite S in S1. apply Ok_inj in S1.
    assert (E1 : pk = pk_of k). { rewrite (Public_eq k K) in P1. apply Ok_inj in P1. apply (f_equal (firstn 32)) in P1. rewrite !firstn_app, L1, (proj2 (pk_of_ok k K)), Nat.sub_diag, !firstn_O, !app_nil_r in P1. rewrite (firstn_all2 pk), (firstn_all2 (pk_of k)) in P1 by (rewrite ?L1, ?(proj2 (pk_of_ok k K)); lia). symmetry. exact P1. }
    rewrite <- P, S1, <- E1. split; [rewrite E1, (pk_of_gen k K), effective_lost; reflexivity |]. split; [exact SL | exact V].
  - apply IH. intros k' I. apply KS. right. exact I.
Qed.
Print Assumptions C69_exact.
