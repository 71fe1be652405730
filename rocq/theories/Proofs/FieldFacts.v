(** [F] is a field; ring and field tactics for it. *)
From Coq Require Import ZArith Znumtheory List Bool Eqdep_dec Lia Ring Field Field_theory.
From Verif.Spec Require Import EdSpec.
From Verif.Proofs Require Import Fermat Primes.
Import ListNotations. Open Scope Z_scope.

Lemma p_pos : 0 < p25519. Proof. reflexivity. Qed.
Lemma p_prime : prime p25519. Proof. exact prime_25519. Qed.
Lemma p_gt_2 : 2 < p25519. Proof. reflexivity. Qed.
#[global] Opaque p25519.
Lemma p_nz : p25519 <> 0. Proof. pose proof p_pos. lia. Qed.
#[global] Hint Resolve p_nz : core.

Lemma F_eq a b : fval a = fval b -> a = b.
Proof. destruct a as [a Ha], b as [b Hb]. cbn. intros <-. f_equal. apply UIP_dec. apply bool_dec. Qed.
Lemma fval_mod a : fval a mod p25519 = fval a.
Proof. destruct a as [a H]. cbn. apply Z.eqb_eq. exact H. Qed.
Lemma fval_range a : 0 <= fval a < p25519.
Proof. rewrite <- fval_mod. apply Z.mod_pos_bound. exact p_pos. Qed.
Lemma of_Z_eq a b : of_Z a = of_Z b <-> a mod p25519 = b mod p25519.
Proof. split; [intros H; exact (f_equal fval H) | intros H; apply F_eq; exact H]. Qed.
Lemma of_Z_val a : of_Z (fval a) = a.
Proof. apply F_eq. cbn. apply fval_mod. Qed.
Lemma fval_of_Z z : fval (of_Z z) = z mod p25519. Proof. reflexivity. Qed.
Lemma of_Z_add a b : of_Z (a + b) = fadd (of_Z a) (of_Z b).
Proof. unfold fadd. apply of_Z_eq. cbn. apply Z.add_mod. auto. Qed.
Lemma of_Z_sub a b : of_Z (a - b) = fsub (of_Z a) (of_Z b).
Proof. unfold fsub. apply of_Z_eq. cbn. apply Zminus_mod. Qed.
Lemma of_Z_mul a b : of_Z (a * b) = fmul (of_Z a) (of_Z b).
Proof. unfold fmul. apply of_Z_eq. cbn. apply Z.mul_mod. auto. Qed.
Lemma of_Z_opp a : of_Z (- a) = fopp (of_Z a).
Proof. unfold fopp. apply of_Z_eq. cbn. rewrite <- !(Z.sub_0_l). rewrite Zminus_mod, (Zminus_mod 0 (a mod p25519)), Z.mod_mod; auto. Qed.

(** Every fact about F is a fact about integers modulo p. *)
Ltac to_Z :=
  repeat match goal with a : F |- _ => rewrite <- (of_Z_val a); generalize (fval a); clear a; intros a end;
  unfold f0, f1; rewrite <- ?of_Z_add, <- ?of_Z_sub, <- ?of_Z_mul, <- ?of_Z_opp.
Lemma F_ring : ring_theory f0 f1 fadd fmul fsub fopp eq.
Proof.
  constructor; intros; unfold f0, f1; repeat match goal with a : F |- _ => rewrite <- (of_Z_val a); generalize (fval a); clear a; intros a end;
    repeat rewrite <- ?of_Z_add, <- ?of_Z_sub, <- ?of_Z_mul, <- ?of_Z_opp; f_equal; ring.
Qed.
Lemma F_morph : ring_morph f0 f1 fadd fmul fsub fopp eq 0 1 Z.add Z.mul Z.sub Z.opp Z.eqb of_Z.
Proof.
  constructor; try reflexivity; intros; try (apply of_Z_add || apply of_Z_sub || apply of_Z_mul || apply of_Z_opp).
  apply Z.eqb_eq in H. subst. reflexivity.
Qed.
Ltac F_cst t := match t with of_Z ?z => match isZcst z with true => constr:(z) | _ => constr:(InitialRing.NotConstant) end | f0 => constr:(0) | f1 => constr:(1) | _ => constr:(InitialRing.NotConstant) end.
Add Ring F_Ring : F_ring (morphism F_morph, constants [F_cst]).

Lemma fpow_pos_eq a e : fpow_pos a e = of_Z (fval a ^ Zpos e).
Proof.
  induction e as [e IH | e IH |]; cbn [fpow_pos].
  - rewrite IH. rewrite <- (of_Z_val a) at 1. rewrite <- !of_Z_mul. f_equal. rewrite Pos2Z.inj_xI. replace (2 * Zpos e + 1) with (1 + (Zpos e + Zpos e)) by lia. rewrite !Z.pow_add_r by lia. ring.
  - rewrite IH. rewrite <- !of_Z_mul. f_equal. rewrite Pos2Z.inj_xO. replace (2 * Zpos e) with (Zpos e + Zpos e) by lia. rewrite !Z.pow_add_r by lia. ring.
  - rewrite Z.pow_1_r, of_Z_val. reflexivity.
Qed.
Lemma of_Z_0_iff z : of_Z z = f0 <-> (p25519 | z).
Proof. unfold f0. rewrite of_Z_eq, Z.mod_0_l by auto. apply Z.mod_divide. auto. Qed.
Lemma f_nz_div a : a <> f0 -> ~ (p25519 | fval a).
Proof. intros H D. apply H. rewrite <- (of_Z_val a). apply of_Z_0_iff. exact D. Qed.
Lemma fermat_F a : a <> f0 -> fpow_pos a (Z.to_pos (p25519 - 1)) = f1.
Proof.
  intros H. rewrite fpow_pos_eq, Z2Pos.id by (pose proof p_gt_2; lia). unfold f1. apply of_Z_eq. rewrite fermat by (auto using p_prime, f_nz_div). symmetry. apply Z.mod_small. pose proof p_gt_2. lia.
Qed.
Lemma finv_l a : a <> f0 -> fmul (finv a) a = f1.
Proof.
  intros H. rewrite <- (fermat_F a H). unfold finv. rewrite !fpow_pos_eq, !Z2Pos.id by (pose proof p_gt_2; lia). rewrite <- (of_Z_val a) at 2. rewrite <- of_Z_mul. f_equal.
  replace (p25519 - 1) with (p25519 - 2 + 1) by lia. rewrite Z.pow_add_r by (pose proof p_gt_2; lia). rewrite Z.pow_1_r. reflexivity.
Qed.
Lemma f1_nz : f1 <> f0.
Proof. unfold f1. intros H. apply of_Z_0_iff in H. apply Z.divide_pos_le in H; pose proof p_gt_2; lia. Qed.
Lemma finv_0 : finv f0 = f0.
Proof. unfold finv. rewrite fpow_pos_eq. apply of_Z_0_iff. exists 0. change (fval f0) with (0 mod p25519). rewrite Z.mod_0_l, Z.pow_0_l by (auto; lia). reflexivity. Qed.
Lemma F_field : field_theory f0 f1 fadd fmul fsub fopp fdiv finv eq.
Proof. constructor; [exact F_ring | exact f1_nz | reflexivity | exact finv_l]. Qed.
#[global] Opaque finv.
Add Field F_Field : F_field (morphism F_morph, constants [F_cst]).

Lemma fmul_0 a b : fmul a b = f0 -> a = f0 \/ b = f0.
Proof.
  rewrite <- (of_Z_val a), <- (of_Z_val b), <- of_Z_mul, !of_Z_0_iff. apply prime_mult. exact p_prime.
Qed.
Lemma fmul_nz a b : a <> f0 -> b <> f0 -> fmul a b <> f0.
Proof. intros A B H. apply fmul_0 in H. tauto. Qed.
Lemma F_dec (a b : F) : {a = b} + {a <> b}.
Proof. destruct (Z.eq_dec (fval a) (fval b)) as [E | E]; [left; apply F_eq; auto | right; intros ->; auto]. Qed.
Lemma fsub_0 a b : fsub a b = f0 -> a = b.
Proof. intros H. replace a with (a - b + b)%F by ring. rewrite H. ring. Qed.
Lemma of_Z_nz z : (z mod p25519 <> 0) -> of_Z z <> f0.
Proof. intros H E. apply H. apply of_Z_0_iff in E. apply Z.mod_divide; auto. Qed.
Lemma fdiv_eq a b c : b <> f0 -> (a = c * b)%F -> (a / b = c)%F.
Proof. intros H ->. field. exact H. Qed.
Lemma finv_nz a : a <> f0 -> finv a <> f0.
Proof. intros H E. pose proof (finv_l a H) as L. rewrite E in L. apply f1_nz. rewrite <- L. ring. Qed.
