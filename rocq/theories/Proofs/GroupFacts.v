(** The curve points form a commutative group under [padd]; integer multiples. *)
From Coq Require Import ZArith List Bool Lia Ring Field.
From Verif.Spec Require Import EdSpec.
From Verif.Proofs Require Import FieldFacts CurveFacts.
Import ListNotations. Open Scope Z_scope. Open Scope F_scope.

Lemma on_mk x y : curve x y -> on_curve (mkP x y).
Proof. exact (fun H => H). Qed.
Lemma mk_on x y : on_curve (mkP x y) -> curve x y.
Proof. exact (fun H => H). Qed.
Lemma point_eq x y x' y' : x = x' -> y = y' -> mkP x y = mkP x' y'.
Proof. intros -> ->. reflexivity. Qed.
Lemma fdiv_eq2 a b c e : b <> 0 -> e <> 0 -> a * e = c * b -> a / b = c / e.
Proof. intros B E H. apply fdiv_eq; [exact B |]. symmetry. transitivity (c * b / e); [field; exact E |]. rewrite <- H. field. exact E. Qed.

Transparent fdiv.
Lemma fdiv_def a b : a / b = a * finv b.
Proof. unfold fdiv. exact eq_refl. Qed.
Opaque fdiv.
Lemma fdiv_ext a b a' b' : a = a' -> b = b' -> a / b = a' / b'.
Proof. intros -> ->. reflexivity. Qed.
Lemma padd_on P Q : on_curve P -> on_curve Q -> on_curve (padd P Q).
Proof.
  destruct P as [x1 y1], Q as [x2 y2]. cbn [padd]. intros C1 C2. apply mk_on in C1, C2. apply on_mk.
  pose proof (dx_nz _ _ _ _ C1 C2) as D1. pose proof (dy_nz _ _ _ _ C1 C2) as D2.
  pose proof (closure_id x1 y1 x2 y2) as I. cbv zeta in I. pose proof (proj1 (curve_err _ _) C1) as R1. pose proof (proj1 (curve_err _ _) C2) as R2. rewrite R1, R2 in I.
  assert (Z : forall a b : F, a * 0 + b * 0 = 0) by (intros; ring). rewrite Z in I. clear Z C1 C2 R1 R2.
  set (dl := fd * x1 * x2 * y1 * y2) in *. set (nx := x1 * y2 + x2 * y1) in *. set (ny := y1 * y2 + x1 * x2) in *. set (dp := 1 + dl) in *. set (dm := 1 - dl) in *.
  clearbody dp dm nx ny. clear dl. unfold curve. apply fsub_0.
  transitivity ((ny * ny * (dp * dp) - nx * nx * (dm * dm) - dp * dp * (dm * dm) - fd * (nx * nx) * (ny * ny)) / (dp * dp * (dm * dm))).
  - field. split; assumption.
  - rewrite I. field. split; assumption.
Qed.

Lemma padd_comm P Q : padd P Q = padd Q P.
Proof. destruct P as [x1 y1], Q as [x2 y2]. cbn [padd]. apply point_eq; apply fdiv_ext; ring. Qed.
Lemma fdiv_1 a : a / 1 = a. Proof. field. exact f1_nz. Qed.
Lemma padd_0_r P : padd P pzero = P.
Proof.
  destruct P as [x y]. unfold pzero. cbn [padd]. apply point_eq.
  - transitivity (x / 1); [apply fdiv_ext; ring | apply fdiv_1].
  - transitivity (y / 1); [apply fdiv_ext; ring | apply fdiv_1].
Qed.
Lemma padd_0_l P : padd pzero P = P.
Proof. rewrite padd_comm. apply padd_0_r. Qed.
Lemma pzero_on : on_curve pzero.
Proof. unfold pzero. apply on_mk. unfold curve. ring. Qed.
Lemma pneg_on P : on_curve P -> on_curve (pneg P).
Proof. destruct P as [x y]. unfold pneg. cbn [px py]. intros H. apply mk_on in H. apply on_mk. unfold curve in *. transitivity (y * y - x * x); [ring |]. rewrite H. ring. Qed.
Lemma padd_neg_r P : on_curve P -> padd P (pneg P) = pzero.
Proof.
  destruct P as [x y]. unfold pneg, pzero. cbn [px py padd]. intros C. apply mk_on in C.
  assert (C' : curve (- x) y) by (apply (pneg_on (mkP x y)); exact C).
  pose proof (dx_nz _ _ _ _ C C') as D1. pose proof (dy_nz _ _ _ _ C C') as D2. apply point_eq.
  - apply fdiv_eq; [exact D1 | ring].
  - apply fdiv_eq; [exact D2 |]. unfold curve in C. transitivity (y * y - x * x); [ring |]. rewrite C. ring.
Qed.

Lemma frac_add_x nx dp ny dm x y : dp <> 0 -> dm <> 0 -> 1 + fd * (nx / dp) * x * (ny / dm) * y <> 0 ->
  dp * dm + fd * nx * ny * x * y <> 0 /\
  (nx / dp * y + x * (ny / dm)) / (1 + fd * (nx / dp) * x * (ny / dm) * y) = (nx * y * dm + x * ny * dp) / (dp * dm + fd * nx * ny * x * y).
Proof.
  intros P M H. assert (E : dp * dm + fd * nx * ny * x * y = (1 + fd * (nx / dp) * x * (ny / dm) * y) * (dp * dm)) by (field; split; assumption).
  assert (N : dp * dm + fd * nx * ny * x * y <> 0) by (rewrite E; exact (fmul_nz _ _ H (fmul_nz _ _ P M))). split; [exact N |].
  apply fdiv_eq2; [exact H | exact N |]. rewrite E. field. split; assumption.
Qed.
Lemma frac_add_y nx dp ny dm x y : dp <> 0 -> dm <> 0 -> 1 - fd * (nx / dp) * x * (ny / dm) * y <> 0 ->
  dp * dm - fd * nx * ny * x * y <> 0 /\
  (ny / dm * y + nx / dp * x) / (1 - fd * (nx / dp) * x * (ny / dm) * y) = (ny * y * dp + nx * x * dm) / (dp * dm - fd * nx * ny * x * y).
Proof.
  intros P M H. assert (E : dp * dm - fd * nx * ny * x * y = (1 - fd * (nx / dp) * x * (ny / dm) * y) * (dp * dm)) by (field; split; assumption).
  assert (N : dp * dm - fd * nx * ny * x * y <> 0) by (rewrite E; exact (fmul_nz _ _ H (fmul_nz _ _ P M))). split; [exact N |].
  apply fdiv_eq2; [exact H | exact N |]. rewrite E. field. split; assumption.
Qed.

Theorem padd_assoc : forall P Q R, on_curve P -> on_curve Q -> on_curve R -> padd (padd P Q) R = padd P (padd Q R).
Proof.
  intros [x1 y1] [x2 y2] [x3 y3] C1 C2 C3. rewrite (padd_comm (mkP x1 y1) (padd (mkP x2 y2) (mkP x3 y3))).
  pose proof (padd_on _ _ C1 C2) as C12. pose proof (padd_on _ _ C2 C3) as C23. cbn [padd] in *. apply mk_on in C1, C2, C3, C12, C23.
  pose proof (dx_nz _ _ _ _ C1 C2) as Dp. pose proof (dy_nz _ _ _ _ C1 C2) as Dm. pose proof (dx_nz _ _ _ _ C2 C3) as Dp'. pose proof (dy_nz _ _ _ _ C2 C3) as Dm'.
  pose proof (dx_nz _ _ _ _ C12 C3) as DX. pose proof (dy_nz _ _ _ _ C12 C3) as DY. pose proof (dx_nz _ _ _ _ C23 C1) as DX'. pose proof (dy_nz _ _ _ _ C23 C1) as DY'.
  pose proof (assoc_x_id x1 y1 x2 y2 x3 y3) as IX. pose proof (assoc_y_id x1 y1 x2 y2 x3 y3) as IY. cbv zeta in IX, IY. pose proof (proj1 (curve_err _ _) C1) as R1. pose proof (proj1 (curve_err _ _) C2) as R2. pose proof (proj1 (curve_err _ _) C3) as R3. rewrite R1, R2, R3 in IX, IY.
  assert (Z : forall a b c : F, a * 0 + b * 0 + c * 0 = 0) by (intros; ring). rewrite Z in IX, IY. clear Z C1 C2 C3 R1 R2 R3 C12 C23.
  apply fsub_0 in IX, IY.
  set (nx := x1 * y2 + x2 * y1) in *. set (ny := y1 * y2 + x1 * x2) in *. set (dp := 1 + fd * x1 * x2 * y1 * y2) in *. set (dm := 1 - fd * x1 * x2 * y1 * y2) in *.
  set (nx' := x2 * y3 + x3 * y2) in *. set (ny' := y2 * y3 + x2 * x3) in *. set (dp' := 1 + fd * x2 * x3 * y2 * y3) in *. set (dm' := 1 - fd * x2 * x3 * y2 * y3) in *.
  clearbody nx ny dp dm nx' ny' dp' dm'.
  destruct (frac_add_x nx dp ny dm x3 y3 Dp Dm DX) as [N1 E1]. destruct (frac_add_y nx dp ny dm x3 y3 Dp Dm DY) as [N2 E2].
  destruct (frac_add_x nx' dp' ny' dm' x1 y1 Dp' Dm' DX') as [N3 E3]. destruct (frac_add_y nx' dp' ny' dm' x1 y1 Dp' Dm' DY') as [N4 E4].
  apply point_eq.
  - rewrite E1, E3. apply fdiv_eq2; [exact N1 | exact N3 | exact IX].
  - rewrite E2, E4. apply fdiv_eq2; [exact N2 | exact N4 | exact IY].
Qed.

(** ** Multiples *)
Open Scope Z_scope.
Lemma pneg_zero : pneg pzero = pzero.
Proof. unfold pneg, pzero. cbn [px py]. apply point_eq; [ring | reflexivity]. Qed.
Lemma pneg_neg P : pneg (pneg P) = P.
Proof. destruct P as [x y]. unfold pneg. cbn [px py]. apply point_eq; [ring | reflexivity]. Qed.
Lemma pneg_add P Q : pneg (padd P Q) = padd (pneg P) (pneg Q).
Proof.
  destruct P as [x1 y1], Q as [x2 y2]. unfold pneg. cbn [px py padd].
  replace (1 + fd * - x1 * - x2 * y1 * y2)%F with (1 + fd * x1 * x2 * y1 * y2)%F by ring. replace (1 - fd * - x1 * - x2 * y1 * y2)%F with (1 - fd * x1 * x2 * y1 * y2)%F by ring.
  rewrite !fdiv_def. apply point_eq; ring.
Qed.
Global Opaque padd pneg pzero on_curve.
Lemma nmul_on n P : on_curve P -> on_curve (nmul n P).
Proof. intros H. induction n; cbn [nmul]; [apply pzero_on | apply padd_on; assumption]. Qed.
Lemma nmul_add m n P : on_curve P -> nmul (m + n) P = padd (nmul m P) (nmul n P).
Proof.
  intros H. induction m; cbn [nmul Nat.add]; [rewrite padd_0_l; reflexivity |]. rewrite IHm. symmetry. apply padd_assoc; [exact H | exact (nmul_on _ _ H) | exact (nmul_on _ _ H)].
Qed.
Lemma nmul_neg n P : nmul n (pneg P) = pneg (nmul n P).
Proof. induction n; cbn [nmul]; [rewrite pneg_zero; reflexivity |]. rewrite IHn, pneg_add. reflexivity. Qed.
Lemma zmul_nat n P : zmul (Z.of_nat n) P = nmul n P.
Proof. unfold zmul. destruct (Z.ltb_spec (Z.of_nat n) 0); [lia |]. rewrite Nat2Z.id. reflexivity. Qed.
Lemma zmul_opp n P : zmul (- n) P = pneg (zmul n P).
Proof.
  unfold zmul. destruct (Z.ltb_spec n 0), (Z.ltb_spec (- n) 0); try lia.
  - rewrite nmul_neg, pneg_neg. reflexivity.
  - rewrite nmul_neg. f_equal. f_equal. lia.
  - replace n with 0%Z by lia. cbn [Z.opp Z.to_nat nmul]. rewrite pneg_zero. reflexivity.
Qed.
Lemma zmul_on n P : on_curve P -> on_curve (zmul n P).
Proof. intros H. unfold zmul. destruct (n <? 0)%Z; apply nmul_on; [exact (pneg_on _ H) | exact H]. Qed.
(** [auto] and [assumption] compare points up to conversion; this matches syntactically. *)
Ltac oc := match goal with
  | H : on_curve ?P |- on_curve ?P => exact H
  | |- on_curve (padd _ _) => apply padd_on; oc
  | |- on_curve (pneg _) => apply pneg_on; oc
  | |- on_curve (nmul _ _) => apply nmul_on; oc
  | |- on_curve (zmul _ _) => apply zmul_on; oc
  | |- on_curve pzero => exact pzero_on
  end.

Lemma zmul_0 P : zmul 0 P = pzero. Proof. reflexivity. Qed.
Lemma zmul_1 P : zmul 1 P = P. Proof. unfold zmul. change (1 <? 0)%Z with false. change (Z.to_nat 1) with 1%nat. cbn [nmul]. apply padd_0_r. Qed.
Lemma zmul_add_pos m n P : on_curve P -> 0 <= m -> 0 <= n -> zmul (m + n) P = padd (zmul m P) (zmul n P).
Proof.
  intros C M N. rewrite <- (Z2Nat.id m), <- (Z2Nat.id n) by lia. rewrite <- Nat2Z.inj_add, !zmul_nat. apply nmul_add. exact C.
Qed.
Lemma padd_cancel P Q : on_curve P -> on_curve Q -> padd (padd P Q) (pneg Q) = P.
Proof. intros HP HQ. rewrite padd_assoc by oc. rewrite padd_neg_r by oc. apply padd_0_r. Qed.
Lemma zmul_sub_pos m n P : on_curve P -> 0 <= n <= m -> zmul (m - n) P = padd (zmul m P) (pneg (zmul n P)).
Proof.
  intros C H. replace m with ((m - n) + n)%Z at 2 by lia. rewrite zmul_add_pos by first [lia | oc]. rewrite padd_cancel by oc. reflexivity.
Qed.
Theorem zmul_add : forall m n P, on_curve P -> zmul (m + n) P = padd (zmul m P) (zmul n P).
Proof.
  assert (G : forall m n P, on_curve P -> 0 <= m -> zmul (m + n) P = padd (zmul m P) (zmul n P)).
  { intros m n P C M. destruct (Z.le_gt_cases 0 n) as [N | N]; [apply zmul_add_pos; first [lia | oc] |].
    replace (zmul n P) with (pneg (zmul (- n) P)) by (rewrite <- zmul_opp; f_equal; lia). destruct (Z.le_gt_cases (- n) m) as [L | L].
    - replace (m + n)%Z with (m - (- n))%Z by lia. apply zmul_sub_pos; first [lia | oc].
    - replace (m + n)%Z with (- ((- n) - m))%Z by lia. rewrite zmul_opp, zmul_sub_pos by first [lia | oc]. rewrite pneg_add, pneg_neg. apply padd_comm. }
  intros m n P C. destruct (Z.le_gt_cases 0 m) as [M | M]; [apply G; first [lia | oc] |].
  destruct (Z.le_gt_cases 0 n) as [N | N]; [rewrite Z.add_comm, padd_comm; apply G; first [lia | oc] |].
  replace (m + n)%Z with (- ((- m) + (- n)))%Z by lia. rewrite zmul_opp, G by first [lia | oc]. rewrite pneg_add, <- !zmul_opp, !Z.opp_involutive. reflexivity.
Qed.
Theorem zmul_mul : forall m n P, on_curve P -> zmul (m * n) P = zmul m (zmul n P).
Proof.
  assert (G : forall m, 0 <= m -> forall n P, on_curve P -> zmul (m * n) P = zmul m (zmul n P)).
  { apply (natlike_ind (fun m => forall n P, on_curve P -> zmul (m * n) P = zmul m (zmul n P))); [reflexivity |].
    intros m M IH n P C. unfold Z.succ. rewrite Z.mul_add_distr_r, !zmul_add by oc. rewrite IH by oc. rewrite Z.mul_1_l, zmul_1. reflexivity. }
  intros m n P C. destruct (Z.le_gt_cases 0 m) as [M | M]; [apply G; first [lia | oc] |].
  replace (m * n)%Z with (- ((- m) * n))%Z by ring. rewrite zmul_opp, G by first [lia | oc]. rewrite <- zmul_opp, Z.opp_involutive. reflexivity.
Qed.
Lemma zmul_padd m P Q : on_curve P -> on_curve Q -> zmul m (padd P Q) = padd (zmul m P) (zmul m Q).
Proof.
  intros HP HQ. assert (G : forall m, 0 <= m -> zmul m (padd P Q) = padd (zmul m P) (zmul m Q)).
  { apply natlike_ind; [rewrite !zmul_0, padd_0_l; reflexivity |]. intros k K IH. unfold Z.succ. rewrite !zmul_add by oc. rewrite IH, !zmul_1.
    rewrite !padd_assoc by oc. apply (f_equal (padd (zmul k P))). rewrite <- !padd_assoc by oc. apply (f_equal (fun R => padd R Q)). apply padd_comm. }
  destruct (Z.le_gt_cases 0 m) as [M | M]; [apply G; first [lia | oc] |]. replace m with (- (- m))%Z by lia. rewrite !(zmul_opp (- m)), G by lia. apply pneg_add.
Qed.
Lemma zmul_mod k n P : on_curve P -> zmul n P = pzero -> 0 < n -> zmul (k mod n) P = zmul k P.
Proof.
  intros C E N. rewrite (Z.div_mod k n) at 2 by lia. rewrite zmul_add, Z.mul_comm, zmul_mul, E by oc.
  assert (Z0 : forall q, zmul q pzero = pzero).
  { intros q. assert (G : forall j, nmul j pzero = pzero) by (induction j; cbn [nmul]; [reflexivity | rewrite IHj; apply padd_0_r]). unfold zmul. rewrite pneg_zero, !G. destruct (q <? 0)%Z; reflexivity. }
  rewrite Z0, padd_0_l. reflexivity.
Qed.
