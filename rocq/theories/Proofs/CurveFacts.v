(** The Edwards addition law on the curve: completeness, closure, associativity; scalar multiples. The
    cofactors in [closure_id], [assoc_x_id] and [assoc_y_id] were computed outside Coq and are checked by [ring]. *)
From Coq Require Import ZArith Znumtheory List Bool Lia Ring Field.
From Verif.Spec Require Import EdSpec.
From Verif.Proofs Require Import Fermat Primes FieldFacts.
Import ListNotations. Open Scope Z_scope. Open Scope F_scope.

(** ** Constants *)
Definition i_val : Z := 19681161376707505956807079304988542015446066515923890162744021073123829784752.
Definition d_val : Z := 37095705934669439343138083508754565189542113879843219016388785533085940283555.
Definition sqrt_2d : Z := 55487632915927625549282413919184614932259505768049324239291840100650878933168.
Lemma p_def : p25519 = (2 ^ 255 - 19)%Z. Proof. reflexivity. Qed.
Lemma i_sq : of_Z i_val * of_Z i_val = - (1).
Proof. unfold f1. rewrite <- of_Z_mul, <- of_Z_opp. apply of_Z_eq. rewrite p_def. vm_compute. reflexivity. Qed.
Lemma small_nz z : (0 < z < 2 ^ 254)%Z -> of_Z z <> 0.
Proof. intros H. apply of_Z_nz. rewrite Z.mod_small; [lia |]. rewrite p_def. lia. Qed.
Lemma two_nz : of_Z 2 <> 0. Proof. apply small_nz. lia. Qed.
Lemma d_eq : fd = of_Z d_val.
Proof.
  unfold fd. apply fdiv_eq; [apply small_nz; lia |]. rewrite <- of_Z_opp, <- of_Z_mul. apply of_Z_eq. rewrite p_def. vm_compute. reflexivity.
Qed.
#[global] Opaque fd fadd fsub fmul fopp fdiv of_Z.
Lemma sqrt_2d_ok : of_Z sqrt_2d * of_Z sqrt_2d = of_Z 2 * fd.
Proof. rewrite d_eq, <- !of_Z_mul. apply of_Z_eq. rewrite p_def. vm_compute. reflexivity. Qed.
Lemma d_nz : fd <> 0.
Proof. rewrite d_eq. apply of_Z_nz. rewrite p_def. vm_compute. discriminate. Qed.
(** 2 is not a square, so neither is d. *)
Lemma two_half_p : (2 ^ ((p25519 - 1) / 2) mod p25519 = p25519 - 1)%Z.
Proof. rewrite p_def. exact two_half_25519. Qed.
Lemma half_pos : (0 < (p25519 - 1) / 2)%Z. Proof. rewrite p_def. vm_compute. reflexivity. Qed.
Lemma half_twice : (p25519 - 1 = 2 * ((p25519 - 1) / 2))%Z. Proof. rewrite p_def. vm_compute. reflexivity. Qed.
Lemma two_nonsquare t : t * t <> of_Z 2.
Proof.
  intros H. assert (Ht : t <> 0) by (intros ->; apply two_nz; rewrite <- H; ring).
  pose proof two_half_p as T. pose proof half_pos as HP. pose proof half_twice as HT. set (h := ((p25519 - 1) / 2)%Z) in *. clearbody h.
  assert (E : (fval t ^ (2 * h) mod p25519 = 1)%Z) by (rewrite <- HT; apply fermat; [exact p_prime | apply f_nz_div; exact Ht]).
  rewrite Z.pow_mul_r, Z.pow_2_r in E by lia.
  assert (S : ((fval t * fval t) mod p25519 = 2 mod p25519)%Z) by (apply of_Z_eq; exact H).
  rewrite (pow_mod_eq _ p_nz h ltac:(lia) _ 2 S), T in E. pose proof p_gt_2. lia.
Qed.
Lemma d_nonsquare t : t * t <> fd.
Proof.
  intros H. assert (Ht : t <> 0) by (intros ->; apply d_nz; rewrite <- H; ring).
  apply (two_nonsquare (of_Z sqrt_2d / t)). transitivity (of_Z sqrt_2d * of_Z sqrt_2d / (t * t)); [field; exact Ht |]. rewrite sqrt_2d_ok, H. field. exact d_nz.
Qed.

(** ** Completeness *)
Definition curve (x y : F) : Prop := y * y - x * x = 1 + fd * (x * x) * (y * y).
Lemma f_cancel a b c : c <> 0 -> a * c = b * c -> a = b.
Proof. intros H E. transitivity (a * c / c); [field; exact H |]. rewrite E. field. exact H. Qed.
Lemma nonunit x1 y1 x2 y2 e : curve x1 y1 -> curve x2 y2 -> e * e = 1 -> fd * x1 * x2 * y1 * y2 <> e.
Proof.
  intros C1 C2 E H. assert (En : e <> 0) by (intros ->; apply f1_nz; rewrite <- E; ring).
  assert (X1 : x1 <> 0) by (intros ->; apply En; rewrite <- H; ring). assert (Y1 : y1 <> 0) by (intros ->; apply En; rewrite <- H; ring).
  assert (Y2 : y2 <> 0) by (intros ->; apply En; rewrite <- H; ring). pose proof i_sq as I. set (i := of_Z i_val) in *.
  assert (S : fd * (x1 * x1) * (y1 * y1) * (y2 * y2 - x2 * x2) = y1 * y1 - x1 * x1).
  { rewrite C2, C1. transitivity (fd * (x1 * x1) * (y1 * y1) + (fd * x1 * x2 * y1 * y2) * (fd * x1 * x2 * y1 * y2)); [ring |]. rewrite H, E. ring. }
  assert (G : forall j, j * j = - (1) -> y2 + j * x2 = 0).
  { intros j J. destruct (F_dec (y2 + j * x2) 0) as [Q | Q]; [exact Q | exfalso].
    assert (N : x1 * y1 * (y2 + j * x2) <> 0) by (exact (fmul_nz _ _ (fmul_nz _ _ X1 Y1) Q)).
    apply (d_nonsquare ((y1 + j * e * x1) / (x1 * y1 * (y2 + j * x2)))).
    transitivity ((y1 + j * e * x1) * (y1 + j * e * x1) / ((x1 * y1 * (y2 + j * x2)) * (x1 * y1 * (y2 + j * x2)))); [field; exact (conj Q (conj Y1 X1)) |].
    apply fdiv_eq; [exact (fmul_nz _ _ N N) |].
    transitivity (y1 * y1 + (j * j) * (e * e) * (x1 * x1) + of_Z 2 * j * e * x1 * y1); [ring |].
    transitivity (fd * (x1 * x1) * (y1 * y1) * (y2 * y2 + (j * j) * (x2 * x2)) + of_Z 2 * j * (fd * x1 * x2 * y1 * y2) * x1 * y1); [| ring].
    rewrite J, E, H. transitivity (y1 * y1 - x1 * x1 + of_Z 2 * j * e * x1 * y1); [ring |]. rewrite <- S. ring. }
  pose proof (G i I) as G1. assert (G2 : y2 + (- i) * x2 = 0) by (apply G; transitivity (i * i); [ring | auto]).
  apply Y2. apply (f_cancel _ _ (of_Z 2) two_nz). transitivity ((y2 + i * x2) + (y2 + (- i) * x2)); [ring |]. rewrite G1, G2. ring.
Qed.
Lemma dx_nz x1 y1 x2 y2 : curve x1 y1 -> curve x2 y2 -> 1 + fd * x1 * x2 * y1 * y2 <> 0.
Proof. intros C1 C2 H. apply (nonunit x1 y1 x2 y2 (- (1)) C1 C2); [ring |]. apply fsub_0. rewrite <- H. ring. Qed.
Lemma dy_nz x1 y1 x2 y2 : curve x1 y1 -> curve x2 y2 -> 1 - fd * x1 * x2 * y1 * y2 <> 0.
Proof. intros C1 C2 H. apply (nonunit x1 y1 x2 y2 1 C1 C2); [ring |]. symmetry. apply fsub_0. rewrite <- H. ring. Qed.

(** ** Polynomial identities *)
Definition err (x y : F) : F := y * y - x * x - 1 - fd * x * x * y * y.
Lemma curve_err x y : curve x y <-> err x y = 0.
Proof.
  unfold curve, err. split; intros H.
  - rewrite H. ring.
  - apply fsub_0. rewrite <- H. ring.
Qed.
Lemma closure_id x1 y1 x2 y2 : let dl := fd * x1 * x2 * y1 * y2 in let nx := x1 * y2 + x2 * y1 in let ny := y1 * y2 + x1 * x2 in
  ny * ny * ((1 + dl) * (1 + dl)) - nx * nx * ((1 - dl) * (1 - dl)) - (1 + dl) * (1 + dl) * ((1 - dl) * (1 - dl)) - fd * (nx * nx) * (ny * ny) =
  (fd * fd * fd * x1 * x1 * y1 * y1 * x2 * x2 * x2 * x2 * y2 * y2 * y2 * y2 - fd * fd * x1 * x1 * x2 * x2 * x2 * x2 * y2 * y2 * y2 * y2 + fd * fd * y1 * y1 * x2 * x2 * x2 * x2 * y2 * y2 * y2 * y2 - fd * fd * x2 * x2 * x2 * x2 * y2 * y2 * y2 * y2 - fd * x1 * x1 * x2 * x2 * x2 * x2 * y2 * y2 + fd * x1 * x1 * x2 * x2 * y2 * y2 * y2 * y2 + fd * y1 * y1 * x2 * x2 * x2 * x2 * y2 * y2 - fd * y1 * y1 * x2 * x2 * y2 * y2 * y2 * y2 - of_Z 2 * fd * x2 * x2 * x2 * x2 * y2 * y2 * y2 * y2 - of_Z 2 * fd * x2 * x2 * y2 * y2 - of_Z 2 * x2 * x2 * x2 * x2 * y2 * y2 + x2 * x2 * x2 * x2 + of_Z 2 * x2 * x2 * y2 * y2 * y2 * y2 - of_Z 4 * x2 * x2 * y2 * y2 + y2 * y2 * y2 * y2) * err x1 y1 + (fd * x1 * x1 * x1 * x1 * x2 * x2 * y2 * y2 + of_Z 2 * fd * x1 * x1 * x2 * x2 * y2 * y2 + fd * y1 * y1 * y1 * y1 * x2 * x2 * y2 * y2 - of_Z 2 * fd * y1 * y1 * x2 * x2 * y2 * y2 + fd * x2 * x2 * y2 * y2 + of_Z 2 * x1 * x1 * x2 * x2 * y2 * y2 - x1 * x1 * x2 * x2 + x1 * x1 * y2 * y2 - of_Z 2 * y1 * y1 * x2 * x2 * y2 * y2 + y1 * y1 * x2 * x2 - y1 * y1 * y2 * y2 + of_Z 2 * x2 * x2 * y2 * y2 - x2 * x2 + y2 * y2 + of_Z 1) * err x2 y2.
Proof. cbv zeta. unfold err. ring. Qed.
Lemma assoc_x_id x1 y1 x2 y2 x3 y3 :
  let nx := x1 * y2 + x2 * y1 in let ny := y1 * y2 + x1 * x2 in let dp := 1 + fd * x1 * x2 * y1 * y2 in let dm := 1 - fd * x1 * x2 * y1 * y2 in
  let nx' := x2 * y3 + x3 * y2 in let ny' := y2 * y3 + x2 * x3 in let dp' := 1 + fd * x2 * x3 * y2 * y3 in let dm' := 1 - fd * x2 * x3 * y2 * y3 in
  (nx * y3 * dm + x3 * ny * dp) * (dp' * dm' + fd * nx' * ny' * x1 * y1) - (nx' * y1 * dm' + x1 * ny' * dp') * (dp * dm + fd * nx * ny * x3 * y3) =
  (0 - fd * fd * x1 * x2 * x2 * x2 * x2 * y2 * y2 * y2 * x3 * x3 * y3 - fd * fd * x1 * x2 * x2 * x2 * y2 * y2 * y2 * y2 * x3 * y3 * y3 + fd * fd * y1 * x2 * x2 * x2 * x2 * y2 * y2 * y2 * x3 * y3 * y3 + fd * fd * y1 * x2 * x2 * x2 * y2 * y2 * y2 * y2 * x3 * x3 * y3 - fd * x1 * x2 * x2 * x2 * x2 * y2 * x3 * x3 * y3 - fd * x1 * x2 * x2 * x2 * y2 * y2 * x3 * x3 * x3 - fd * x1 * x2 * x2 * x2 * y2 * y2 * x3 + fd * x1 * x2 * x2 * y2 * y2 * y2 * y3 * y3 * y3 - fd * x1 * x2 * x2 * y2 * y2 * y2 * y3 + fd * x1 * x2 * y2 * y2 * y2 * y2 * x3 * y3 * y3 + fd * y1 * x2 * x2 * x2 * x2 * y2 * x3 * y3 * y3 + fd * y1 * x2 * x2 * x2 * y2 * y2 * y3 * y3 * y3 - fd * y1 * x2 * x2 * x2 * y2 * y2 * y3 - fd * y1 * x2 * x2 * y2 * y2 * y2 * x3 * x3 * x3 - fd * y1 * x2 * x2 * y2 * y2 * y2 * x3 - fd * y1 * x2 * y2 * y2 * y2 * y2 * x3 * x3 * y3) * err x1 y1 + (fd * fd * x1 * x1 * y1 * x2 * x2 * y2 * x3 * x3 * x3 * y3 * y3 - fd * fd * x1 * x1 * y1 * x2 * y2 * y2 * x3 * x3 * y3 * y3 * y3 - fd * fd * x1 * y1 * y1 * x2 * x2 * y2 * x3 * x3 * y3 * y3 * y3 + fd * fd * x1 * y1 * y1 * x2 * y2 * y2 * x3 * x3 * x3 * y3 * y3 + fd * x1 * x1 * x1 * x2 * x2 * y2 * x3 * x3 * y3 + fd * x1 * x1 * x1 * x2 * y2 * y2 * x3 * y3 * y3 + fd * x1 * x1 * x1 * x2 * x3 * x3 * x3 * y3 * y3 + fd * x1 * x1 * x1 * y2 * x3 * x3 * y3 * y3 * y3 - fd * x1 * x1 * y1 * x2 * x2 * y2 * x3 * y3 * y3 - fd * x1 * x1 * y1 * x2 * y2 * y2 * x3 * x3 * y3 + fd * x1 * x1 * y1 * x2 * x3 * x3 * y3 * y3 * y3 + fd * x1 * x1 * y1 * y2 * x3 * x3 * x3 * y3 * y3 - fd * x1 * y1 * y1 * x2 * x2 * y2 * x3 * x3 * y3 - fd * x1 * y1 * y1 * x2 * y2 * y2 * x3 * y3 * y3 - fd * x1 * y1 * y1 * x2 * x3 * x3 * x3 * y3 * y3 - fd * x1 * y1 * y1 * y2 * x3 * x3 * y3 * y3 * y3 + fd * x1 * x2 * x2 * y2 * x3 * x3 * y3 + fd * x1 * x2 * y2 * y2 * x3 * y3 * y3 + fd * x1 * x2 * x3 * x3 * x3 * y3 * y3 + fd * x1 * y2 * x3 * x3 * y3 * y3 * y3 + fd * y1 * y1 * y1 * x2 * x2 * y2 * x3 * y3 * y3 + fd * y1 * y1 * y1 * x2 * y2 * y2 * x3 * x3 * y3 - fd * y1 * y1 * y1 * x2 * x3 * x3 * y3 * y3 * y3 - fd * y1 * y1 * y1 * y2 * x3 * x3 * x3 * y3 * y3 - fd * y1 * x2 * x2 * y2 * x3 * y3 * y3 - fd * y1 * x2 * y2 * y2 * x3 * x3 * y3 + fd * y1 * x2 * x3 * x3 * y3 * y3 * y3 + fd * y1 * y2 * x3 * x3 * x3 * y3 * y3 + x1 * x1 * x1 * x2 * x3 * x3 * x3 - x1 * x1 * x1 * x2 * x3 * y3 * y3 + x1 * x1 * x1 * x2 * x3 + x1 * x1 * x1 * y2 * x3 * x3 * y3 - x1 * x1 * x1 * y2 * y3 * y3 * y3 + x1 * x1 * x1 * y2 * y3 + x1 * x1 * y1 * x2 * x3 * x3 * y3 - x1 * x1 * y1 * x2 * y3 * y3 * y3 + x1 * x1 * y1 * x2 * y3 + x1 * x1 * y1 * y2 * x3 * x3 * x3 - x1 * x1 * y1 * y2 * x3 * y3 * y3 + x1 * x1 * y1 * y2 * x3 - x1 * y1 * y1 * x2 * x3 * x3 * x3 + x1 * y1 * y1 * x2 * x3 * y3 * y3 - x1 * y1 * y1 * x2 * x3 - x1 * y1 * y1 * y2 * x3 * x3 * y3 + x1 * y1 * y1 * y2 * y3 * y3 * y3 - x1 * y1 * y1 * y2 * y3 + x1 * x2 * x3 * x3 * x3 - x1 * x2 * x3 * y3 * y3 + x1 * x2 * x3 + x1 * y2 * x3 * x3 * y3 - x1 * y2 * y3 * y3 * y3 + x1 * y2 * y3 - y1 * y1 * y1 * x2 * x3 * x3 * y3 + y1 * y1 * y1 * x2 * y3 * y3 * y3 - y1 * y1 * y1 * x2 * y3 - y1 * y1 * y1 * y2 * x3 * x3 * x3 + y1 * y1 * y1 * y2 * x3 * y3 * y3 - y1 * y1 * y1 * y2 * x3 + y1 * x2 * x3 * x3 * y3 - y1 * x2 * y3 * y3 * y3 + y1 * x2 * y3 + y1 * y2 * x3 * x3 * x3 - y1 * y2 * x3 * y3 * y3 + y1 * y2 * x3) * err x2 y2 + (0 - fd * x1 * x1 * y1 * x2 * x2 * y2 * x3 + fd * x1 * x1 * y1 * x2 * y2 * y2 * y3 + fd * x1 * y1 * y1 * x2 * x2 * y2 * y3 - fd * x1 * y1 * y1 * x2 * y2 * y2 * x3 - x1 * x1 * x1 * x2 * x2 * x2 * x3 - x1 * x1 * x1 * x2 * x2 * y2 * y3 + x1 * x1 * x1 * x2 * y2 * y2 * x3 - x1 * x1 * x1 * x2 * x3 + x1 * x1 * x1 * y2 * y2 * y2 * y3 - x1 * x1 * x1 * y2 * y3 - x1 * x1 * y1 * x2 * x2 * x2 * y3 - x1 * x1 * y1 * x2 * x2 * y2 * x3 + x1 * x1 * y1 * x2 * y2 * y2 * y3 - x1 * x1 * y1 * x2 * y3 + x1 * x1 * y1 * y2 * y2 * y2 * x3 - x1 * x1 * y1 * y2 * x3 + x1 * y1 * y1 * x2 * x2 * x2 * x3 + x1 * y1 * y1 * x2 * x2 * y2 * y3 - x1 * y1 * y1 * x2 * y2 * y2 * x3 + x1 * y1 * y1 * x2 * x3 - x1 * y1 * y1 * y2 * y2 * y2 * y3 + x1 * y1 * y1 * y2 * y3 - x1 * x2 * x2 * x2 * x3 - x1 * x2 * x2 * y2 * y3 + x1 * x2 * y2 * y2 * x3 - x1 * x2 * x3 + x1 * y2 * y2 * y2 * y3 - x1 * y2 * y3 + y1 * y1 * y1 * x2 * x2 * x2 * y3 + y1 * y1 * y1 * x2 * x2 * y2 * x3 - y1 * y1 * y1 * x2 * y2 * y2 * y3 + y1 * y1 * y1 * x2 * y3 - y1 * y1 * y1 * y2 * y2 * y2 * x3 + y1 * y1 * y1 * y2 * x3 - y1 * x2 * x2 * x2 * y3 - y1 * x2 * x2 * y2 * x3 + y1 * x2 * y2 * y2 * y3 - y1 * x2 * y3 + y1 * y2 * y2 * y2 * x3 - y1 * y2 * x3) * err x3 y3.
Proof. cbv zeta. unfold err. ring. Qed.
Lemma assoc_y_id x1 y1 x2 y2 x3 y3 :
  let nx := x1 * y2 + x2 * y1 in let ny := y1 * y2 + x1 * x2 in let dp := 1 + fd * x1 * x2 * y1 * y2 in let dm := 1 - fd * x1 * x2 * y1 * y2 in
  let nx' := x2 * y3 + x3 * y2 in let ny' := y2 * y3 + x2 * x3 in let dp' := 1 + fd * x2 * x3 * y2 * y3 in let dm' := 1 - fd * x2 * x3 * y2 * y3 in
  (ny * y3 * dp + nx * x3 * dm) * (dp' * dm' - fd * nx' * ny' * x1 * y1) - (ny' * y1 * dp' + nx' * x1 * dm') * (dp * dm - fd * nx * ny * x3 * y3) =
  (fd * fd * x1 * x2 * x2 * x2 * x2 * y2 * y2 * y2 * x3 * y3 * y3 + fd * fd * x1 * x2 * x2 * x2 * y2 * y2 * y2 * y2 * x3 * x3 * y3 - fd * fd * y1 * x2 * x2 * x2 * x2 * y2 * y2 * y2 * x3 * x3 * y3 - fd * fd * y1 * x2 * x2 * x2 * y2 * y2 * y2 * y2 * x3 * y3 * y3 + fd * x1 * x2 * x2 * x2 * x2 * y2 * x3 * y3 * y3 + fd * x1 * x2 * x2 * x2 * y2 * y2 * y3 * y3 * y3 - fd * x1 * x2 * x2 * x2 * y2 * y2 * y3 - fd * x1 * x2 * x2 * y2 * y2 * y2 * x3 * x3 * x3 - fd * x1 * x2 * x2 * y2 * y2 * y2 * x3 - fd * x1 * x2 * y2 * y2 * y2 * y2 * x3 * x3 * y3 - fd * y1 * x2 * x2 * x2 * x2 * y2 * x3 * x3 * y3 - fd * y1 * x2 * x2 * x2 * y2 * y2 * x3 * x3 * x3 - fd * y1 * x2 * x2 * x2 * y2 * y2 * x3 + fd * y1 * x2 * x2 * y2 * y2 * y2 * y3 * y3 * y3 - fd * y1 * x2 * x2 * y2 * y2 * y2 * y3 + fd * y1 * x2 * y2 * y2 * y2 * y2 * x3 * y3 * y3) * err x1 y1 + (fd * fd * x1 * x1 * y1 * x2 * x2 * y2 * x3 * x3 * y3 * y3 * y3 - fd * fd * x1 * x1 * y1 * x2 * y2 * y2 * x3 * x3 * x3 * y3 * y3 - fd * fd * x1 * y1 * y1 * x2 * x2 * y2 * x3 * x3 * x3 * y3 * y3 + fd * fd * x1 * y1 * y1 * x2 * y2 * y2 * x3 * x3 * y3 * y3 * y3 - fd * x1 * x1 * x1 * x2 * x2 * y2 * x3 * y3 * y3 - fd * x1 * x1 * x1 * x2 * y2 * y2 * x3 * x3 * y3 + fd * x1 * x1 * x1 * x2 * x3 * x3 * y3 * y3 * y3 + fd * x1 * x1 * x1 * y2 * x3 * x3 * x3 * y3 * y3 + fd * x1 * x1 * y1 * x2 * x2 * y2 * x3 * x3 * y3 + fd * x1 * x1 * y1 * x2 * y2 * y2 * x3 * y3 * y3 + fd * x1 * x1 * y1 * x2 * x3 * x3 * x3 * y3 * y3 + fd * x1 * x1 * y1 * y2 * x3 * x3 * y3 * y3 * y3 + fd * x1 * y1 * y1 * x2 * x2 * y2 * x3 * y3 * y3 + fd * x1 * y1 * y1 * x2 * y2 * y2 * x3 * x3 * y3 - fd * x1 * y1 * y1 * x2 * x3 * x3 * y3 * y3 * y3 - fd * x1 * y1 * y1 * y2 * x3 * x3 * x3 * y3 * y3 - fd * x1 * x2 * x2 * y2 * x3 * y3 * y3 - fd * x1 * x2 * y2 * y2 * x3 * x3 * y3 + fd * x1 * x2 * x3 * x3 * y3 * y3 * y3 + fd * x1 * y2 * x3 * x3 * x3 * y3 * y3 - fd * y1 * y1 * y1 * x2 * x2 * y2 * x3 * x3 * y3 - fd * y1 * y1 * y1 * x2 * y2 * y2 * x3 * y3 * y3 - fd * y1 * y1 * y1 * x2 * x3 * x3 * x3 * y3 * y3 - fd * y1 * y1 * y1 * y2 * x3 * x3 * y3 * y3 * y3 + fd * y1 * x2 * x2 * y2 * x3 * x3 * y3 + fd * y1 * x2 * y2 * y2 * x3 * y3 * y3 + fd * y1 * x2 * x3 * x3 * x3 * y3 * y3 + fd * y1 * y2 * x3 * x3 * y3 * y3 * y3 + x1 * x1 * x1 * x2 * x3 * x3 * y3 - x1 * x1 * x1 * x2 * y3 * y3 * y3 + x1 * x1 * x1 * x2 * y3 + x1 * x1 * x1 * y2 * x3 * x3 * x3 - x1 * x1 * x1 * y2 * x3 * y3 * y3 + x1 * x1 * x1 * y2 * x3 + x1 * x1 * y1 * x2 * x3 * x3 * x3 - x1 * x1 * y1 * x2 * x3 * y3 * y3 + x1 * x1 * y1 * x2 * x3 + x1 * x1 * y1 * y2 * x3 * x3 * y3 - x1 * x1 * y1 * y2 * y3 * y3 * y3 + x1 * x1 * y1 * y2 * y3 - x1 * y1 * y1 * x2 * x3 * x3 * y3 + x1 * y1 * y1 * x2 * y3 * y3 * y3 - x1 * y1 * y1 * x2 * y3 - x1 * y1 * y1 * y2 * x3 * x3 * x3 + x1 * y1 * y1 * y2 * x3 * y3 * y3 - x1 * y1 * y1 * y2 * x3 + x1 * x2 * x3 * x3 * y3 - x1 * x2 * y3 * y3 * y3 + x1 * x2 * y3 + x1 * y2 * x3 * x3 * x3 - x1 * y2 * x3 * y3 * y3 + x1 * y2 * x3 - y1 * y1 * y1 * x2 * x3 * x3 * x3 + y1 * y1 * y1 * x2 * x3 * y3 * y3 - y1 * y1 * y1 * x2 * x3 - y1 * y1 * y1 * y2 * x3 * x3 * y3 + y1 * y1 * y1 * y2 * y3 * y3 * y3 - y1 * y1 * y1 * y2 * y3 + y1 * x2 * x3 * x3 * x3 - y1 * x2 * x3 * y3 * y3 + y1 * x2 * x3 + y1 * y2 * x3 * x3 * y3 - y1 * y2 * y3 * y3 * y3 + y1 * y2 * y3) * err x2 y2 + (0 - fd * x1 * x1 * y1 * x2 * x2 * y2 * y3 + fd * x1 * x1 * y1 * x2 * y2 * y2 * x3 + fd * x1 * y1 * y1 * x2 * x2 * y2 * x3 - fd * x1 * y1 * y1 * x2 * y2 * y2 * y3 - x1 * x1 * x1 * x2 * x2 * x2 * y3 - x1 * x1 * x1 * x2 * x2 * y2 * x3 + x1 * x1 * x1 * x2 * y2 * y2 * y3 - x1 * x1 * x1 * x2 * y3 + x1 * x1 * x1 * y2 * y2 * y2 * x3 - x1 * x1 * x1 * y2 * x3 - x1 * x1 * y1 * x2 * x2 * x2 * x3 - x1 * x1 * y1 * x2 * x2 * y2 * y3 + x1 * x1 * y1 * x2 * y2 * y2 * x3 - x1 * x1 * y1 * x2 * x3 + x1 * x1 * y1 * y2 * y2 * y2 * y3 - x1 * x1 * y1 * y2 * y3 + x1 * y1 * y1 * x2 * x2 * x2 * y3 + x1 * y1 * y1 * x2 * x2 * y2 * x3 - x1 * y1 * y1 * x2 * y2 * y2 * y3 + x1 * y1 * y1 * x2 * y3 - x1 * y1 * y1 * y2 * y2 * y2 * x3 + x1 * y1 * y1 * y2 * x3 - x1 * x2 * x2 * x2 * y3 - x1 * x2 * x2 * y2 * x3 + x1 * x2 * y2 * y2 * y3 - x1 * x2 * y3 + x1 * y2 * y2 * y2 * x3 - x1 * y2 * x3 + y1 * y1 * y1 * x2 * x2 * x2 * x3 + y1 * y1 * y1 * x2 * x2 * y2 * y3 - y1 * y1 * y1 * x2 * y2 * y2 * x3 + y1 * y1 * y1 * x2 * x3 - y1 * y1 * y1 * y2 * y2 * y2 * y3 + y1 * y1 * y1 * y2 * y3 - y1 * x2 * x2 * x2 * x3 - y1 * x2 * x2 * y2 * y3 + y1 * x2 * y2 * y2 * x3 - y1 * x2 * x3 + y1 * y2 * y2 * y2 * y3 - y1 * y2 * y3) * err x3 y3.
Proof. cbv zeta. unfold err. ring. Qed.
