(** C53: exactly what the double scalar multiplication computes. *)
From Verif.Model Require Import Base Limb EdwardsTable EdwardsCode Edwards.
From Verif.Spec Require Import EdSpec WindowSpec.
From Verif.Proofs Require Import Util LimbFacts RadixFacts FieldFacts CurveFacts GroupFacts FieldEl FieldBytes PointFacts TableFacts ScalarMult SlideFacts.
From Verif.Props Require Import Edwards.
Open Scope Z_scope.

Lemma digit_window u : digit u = window_digit u.
Proof.
  unfold digit, window_digit. rewrite Zmod_even. destruct (Z.even u) eqn:E; [reflexivity |]. cbn [Z.eqb].
  pose proof (Z.mod_pos_bound u 32 ltac:(lia)) as B. pose proof (Z.div_mod u 32 ltac:(lia)) as D.
  destruct (Z.ltb_spec (u mod 32) 16) as [L | L].
  - rewrite <- (Z.mod_unique_pos (u + 16) 32 (u / 32) (u mod 32 + 16)) by lia. lia.
  - rewrite <- (Z.mod_unique_pos (u + 16) 32 (u / 32 + 1) (u mod 32 - 16)) by lia. lia.
Qed.
Lemma digits_0 n : val2 (digits n 0) = 0.
Proof. induction n as [| n IH]; [reflexivity |]. cbn [digits val2]. change (digit 0) with 0. change ((0 - 0) / 2) with 0. rewrite Z.mod_0_l by (apply Z.pow_nonzero; lia). rewrite IH. reflexivity. Qed.
Lemma left_over_pow n : left_over n (2 ^ Z.of_nat n) = 1.
Proof.
  induction n as [| n IH]; [reflexivity |]. cbn [left_over]. rewrite Nat2Z.inj_succ, Z.pow_succ_r by lia.
  unfold window_digit. rewrite Z.even_mul. cbn [Z.even orb]. rewrite Z.sub_0_r, Z.mul_comm, Z.div_mul by lia. exact IH.
Qed.
(** One digit: a number of n + 1 bits leaves at most 2^n. *)
Lemma digit_step n u : 0 <= u < 2 ^ Z.of_nat (S n) -> u = digit u + 2 * ((u - digit u) / 2) /\ 0 <= (u - digit u) / 2 <= 2 ^ Z.of_nat n.
Proof.
  intros R. destruct (digit_cong u) as (h & E & W). assert (E2 : (u - digit u) / 2 = h) by (symmetry; apply (Z.div_unique_pos _ 2 _ 0); lia). rewrite E2. split; [lia |].
  rewrite Nat2Z.inj_succ, Z.pow_succ_r in * by lia. assert (P : 0 < 2 ^ Z.of_nat n) by (apply Z.pow_pos_nonneg; lia). clear W E2.
  unfold digit in *. pose proof (Z.mod_pos_bound u 32 ltac:(lia)) as M32. pose proof (Z.div_mod u 32 ltac:(lia)) as D32. destruct (Z.eqb_spec (u mod 2) 0) as [E0 | E0]; [lia |]. destruct (Z.ltb_spec (u mod 32) 16) as [Q | Q].
  - split; [|lia]. pose proof (Z.div_pos u 32 ltac:(lia) ltac:(lia)). lia.
  - split; [lia |]. destruct (Nat.le_gt_cases n 3) as [N | N].
    + assert (2 ^ Z.of_nat n <= 2 ^ 3) by (apply Z.pow_le_mono_r; lia). change (2 ^ 3) with 8 in *. exfalso. rewrite Z.mod_small in Q by lia. lia.
    + replace (Z.of_nat n) with (4 + (Z.of_nat n - 4)) in * by lia. rewrite Z.pow_add_r in * by lia. change (2 ^ 4) with 16 in *. set (A := 2 ^ (Z.of_nat n - 4)) in *. assert (u / 32 < A) by (apply Z.div_lt_upper_bound; lia). lia.
Qed.
Lemma digits_left n : forall u, 0 <= u < 2 ^ Z.of_nat n -> val2 (digits n u) = u - 2 ^ Z.of_nat n * left_over n u /\ (left_over n u = 0 \/ left_over n u = 1).
Proof.
  induction n as [| n IH]; intros u R.
  - change (2 ^ Z.of_nat 0) with 1 in *. cbn [digits val2 left_over]. lia.
  - destruct (digit_step n u R) as [E B]. cbn [digits val2 left_over]. rewrite <- digit_window. set (v := (u - digit u) / 2) in *. set (d := digit u) in *. clearbody v d.
    rewrite Nat2Z.inj_succ, Z.pow_succ_r by lia. destruct (Z.eq_dec v (2 ^ Z.of_nat n)) as [Q | Q].
    + rewrite Q, Z.mod_same by lia. rewrite digits_0, left_over_pow. lia.
    + rewrite Z.mod_small by lia. destruct (IH v ltac:(lia)) as [I1 I2]. rewrite I1. split; [lia | exact I2].
Qed.

Lemma slide_left a : bytes32 a -> val2 (slide a) = le_value a - 2 ^ 256 * left_over 256 (le_value a) /\ (left_over 256 (le_value a) = 0 \/ left_over 256 (le_value a) = 1).
Proof.
  intros [B L]. rewrite (slide_spec a B L). pose proof (le_value_range a B) as R. rewrite L in R. exact (digits_left 256 (le_value a) R).
Qed.
Lemma comb_cancel A x y x' y' : on_curve A -> (comb x A y = comb (x - x') A (y - y') <-> comb x' A y' = pzero).
Proof.
  intros H. set (u := x - x'). set (v := y - y').
  assert (E : comb x A y = padd (comb u A v) (comb x' A y')) by (rewrite comb_add by exact H; f_equal; unfold u, v; lia). rewrite E. split.
  - intros Q. assert (N : padd (comb (- u) A (- v)) (padd (comb u A v) (comb x' A y')) = comb x' A y') by (rewrite !comb_add by exact H; f_equal; lia).
    rewrite <- N, Q, comb_add by exact H. replace (- u + u) with 0 by lia. replace (- v + v) with 0 by lia. unfold comb. rewrite !zmul_0. exact (padd_0_r pzero).
  - intros ->. apply padd_0_r.
Qed.
(** C53. Full statement: [repr_proj (GeDoubleScalarMultVartime a e b) (padd (zmul (le_value a) A) (zmul (le_value b) base_point))]. Exactly:
    each scalar loses 2^256 if its recoding leaves something over after 256 digits, and the result is right exactly when what both
    lose adds up to the neutral point. *)
Theorem C53_exact : forall a e A b, bytes32 a -> bytes32 b -> repr_ext e A ->
  let la := 2 ^ 256 * left_over 256 (le_value a) in let lb := 2 ^ 256 * left_over 256 (le_value b) in
  (la = 0 \/ la = 2 ^ 256) /\ (lb = 0 \/ lb = 2 ^ 256) /\
  repr_proj (GeDoubleScalarMultVartime a e b) (padd (zmul (le_value a - la) A) (zmul (le_value b - lb) base_point)) /\
  (repr_proj (GeDoubleScalarMultVartime a e b) (padd (zmul (le_value a) A) (zmul (le_value b) base_point)) <->
   padd (zmul la A) (zmul lb base_point) = pzero).
Proof.
  intros a e A b Ha Hb R la lb. pose proof (DoubleScalarMult_gen a e A b (proj1 Ha) (proj2 Ha) (proj1 Hb) (proj2 Hb) R) as G.
  destruct (slide_left a Ha) as [Va Za]. destruct (slide_left b Hb) as [Vb Zb]. fold la in Va. fold lb in Vb. rewrite Va, Vb in G.
  assert (La : la = 0 \/ la = 2 ^ 256) by (unfold la; destruct Za as [-> | ->]; [left | right]; ring).
  assert (Lb : lb = 0 \/ lb = 2 ^ 256) by (unfold lb; destruct Zb as [-> | ->]; [left | right]; ring).
  clearbody la lb. split; [exact La |]. split; [exact Lb |]. split; [exact G |].
  assert (On : on_curve A) by (apply R). generalize dependent (GeDoubleScalarMultVartime a e b). intros g G. generalize dependent (le_value a). generalize dependent (le_value b). intros y _ Vb x _ Va G.
  change (padd (zmul x A) (zmul y base_point)) with (comb x A y). change (padd (zmul la A) (zmul lb base_point)) with (comb la A lb). rewrite <- (comb_cancel A x y la lb On). split.
  - intros Q. exact (repr_proj_functional _ _ _ Q G).
  - intros ->. exact G.
Qed.
Print Assumptions C53_exact.
(** Multiples of the base point alone are right exactly when nothing is left over. *)
Theorem C53_base : forall a e b, bytes32 a -> bytes32 b -> repr_ext e base_point -> le_value b = 0 ->
  (repr_proj (GeDoubleScalarMultVartime a e b) (zmul (le_value a) base_point) <-> left_over 256 (le_value a) = 0).
Proof.
  intros a e b Ha Hb R Zb. destruct (C53_exact a e base_point b Ha Hb R) as (La & _ & _ & I). rewrite Zb in I. change (left_over 256 0) with 0 in I.
  rewrite Z.mul_0_r, zmul_0, !padd_0_r in I. rewrite I. split.
  - intros Q. destruct La as [La | La]; [lia |]. rewrite La in Q. exfalso. exact (pow256_base Q).
  - intros ->. rewrite Z.mul_0_r. apply zmul_0.
Qed.
Print Assumptions C53_base.
(** Not only the end of the range is affected: 17 * 2^251 loses its top bit, 15 * 2^252 does not. *)
Example C53_exact_example : left_over 256 (17 * 2 ^ 251) = 1 /\ left_over 256 (15 * 2 ^ 252) = 0 /\ left_over 256 (2 ^ 256 - 1) = 1.
Proof. repeat split; vm_compute; reflexivity. Qed.
