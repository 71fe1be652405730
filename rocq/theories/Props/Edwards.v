(** Theorems about crypto/edwards25519: scalars, field elements, points, scalar multiplication, encodings (C43-C49, C52-C54). *)
From Coq Require Import Ring Field.
From Verif.Model Require Import Base Limb EdwardsTable EdwardsCode Edwards.
From Verif.Spec Require Import EdSpec.
From Verif.Proofs Require Import Util LimbFacts RadixFacts FieldFacts CurveFacts GroupFacts ScalarFacts FieldEl FieldBytes PointFacts TableFacts ScalarMult DecodeFacts SlideFacts PrimeOrder.
From Coq Require Import Znumtheory.
Open Scope Z_scope.
#[local] Opaque zmul.

Definition bytes32 (s : bytes) : Prop := bytes_ok s /\ length s = 32%nat.

(** ** C43: reduction modulo the group order *)
Theorem C43_ScReduce : forall s, bytes_ok s -> length s = 64%nat ->
  bytes32 (ScReduce s) /\ le_value (ScReduce s) = le_value s mod ell /\ 0 <= le_value (ScReduce s) < ell.
Proof.
  intros s B L. rewrite (ScReduce_spec s B L). assert (E : 0 < ell < 2 ^ 256) by (unfold ell; lia). pose proof (Z.mod_pos_bound (le_value s) ell ltac:(lia)) as M.
  split; [split; [apply le32_bytes | apply le32_length] |]. rewrite le_value_le32 by lia. split; [reflexivity | exact M].
Qed.
Print Assumptions C43_ScReduce.
(** 2^512 - 1, the largest input *)
Example C43_example : let s := repeat 255 64 in bytes_ok s /\ length s = 64%nat /\ le_value (ScReduce s) = (2 ^ 512 - 1) mod ell.
Proof.
  cbv zeta. assert (B : bytes_ok (repeat 255 64)) by (apply Forall_forall; intros x H; apply repeat_spec in H; subst x; unfold is_byte; lia). assert (L : length (repeat 255 64) = 64%nat) by apply repeat_length.
  split; [exact B |]. split; [exact L |]. destruct (C43_ScReduce _ B L) as (_ & E & _). rewrite E. replace (le_value (repeat 255 64)) with (2 ^ 512 - 1) by (vm_compute; reflexivity). reflexivity.
Qed.

(** ** C44: multiply-add modulo the group order *)
Theorem C44_ScMulAdd : forall a b c, bytes32 a -> bytes32 b -> bytes32 c ->
  bytes32 (ScMulAdd a b c) /\ le_value (ScMulAdd a b c) = (le_value a * le_value b + le_value c) mod ell /\ 0 <= le_value (ScMulAdd a b c) < ell.
Proof.
  intros a b c [Ba La] [Bb Lb] [Bc Lc]. rewrite (ScMulAdd_spec a b c) by assumption. assert (E : 0 < ell < 2 ^ 256) by (unfold ell; lia). pose proof (Z.mod_pos_bound (le_value a * le_value b + le_value c) ell ltac:(lia)) as M.
  split; [split; [apply le32_bytes | apply le32_length] |]. rewrite le_value_le32 by lia. split; [reflexivity | exact M].
Qed.
Print Assumptions C44_ScMulAdd.
Example C44_example : ScMulAdd (3 :: repeat 0 31) (repeat 0 31 ++ [16]) (le32 (ell - 2 * (ell - 2 ^ 252))) = le32 ((3 * 2 ^ 252 + ell - 2 * (ell - 2 ^ 252)) mod ell).
Proof. vm_compute. reflexivity. Qed.

(** ** C45: canonical scalars *)
Theorem C45_ScMinimal : forall s, bytes32 s -> (ScMinimal s = true <-> le_value s < ell).
Proof. intros s [B L]. rewrite (ScMinimal_spec s B L). apply Z.ltb_lt. Qed.
Print Assumptions C45_ScMinimal.
Example C45_example : ScMinimal (le32 (ell - 1)) = true /\ ScMinimal (le32 ell) = false /\ ScMinimal (le32 (2 ^ 255)) = false.
Proof. split; [|split]; vm_compute; reflexivity. Qed.

(** ** C46: field arithmetic
    [bounded n] reads: ten limbs, of absolute value at most n/100 * 2^25 at even and n/100 * 2^24 at odd positions.
    The documented bounds 1.1*2^26, 1.1*2^25, ... are [bounded 220], 1.65*2^26, ... are [bounded 330], 1.1*2^25, 1.1*2^24, ... are [bounded 110]. *)
Definition bounded (n : Z) (h : FieldElement) : Prop :=
  length h = 10%nat /\ forall i, (i < 10)%nat -> 100 * Z.abs (nth i h 0) <= n * (if Nat.even i then 2 ^ 25 else 2 ^ 24).
Definition fe_value (h : FieldElement) : Z :=
  nth 0 h 0 + 2 ^ 26 * nth 1 h 0 + 2 ^ 51 * nth 2 h 0 + 2 ^ 77 * nth 3 h 0 + 2 ^ 102 * nth 4 h 0 + 2 ^ 128 * nth 5 h 0 + 2 ^ 153 * nth 6 h 0 + 2 ^ 179 * nth 7 h 0 + 2 ^ 204 * nth 8 h 0 + 2 ^ 230 * nth 9 h 0.
Definition eqmod (a b : Z) : Prop := a mod p25519 = b mod p25519.
Lemma bounded_fb n h : bounded n h <-> fb n h.
Proof.
  split.
  - intros [L H]. destruct (list10 _ L) as (f0 & f1 & f2 & f3 & f4 & f5 & f6 & f7 & f8 & f9 & ->). unfold fb, lim.
    assert (K : forall x w, 100 * Z.abs x <= n * w -> - (n * w / 100) <= x <= n * w / 100). { intros x w Hx. assert (Z.abs x <= n * w / 100) by (apply Z.div_le_lower_bound; lia). lia. }
    apply Forall2_cons; [exact (K _ _ (H 0%nat ltac:(lia))) |].
    apply Forall2_cons; [exact (K _ _ (H 1%nat ltac:(lia))) |].
    apply Forall2_cons; [exact (K _ _ (H 2%nat ltac:(lia))) |].
    apply Forall2_cons; [exact (K _ _ (H 3%nat ltac:(lia))) |].
    apply Forall2_cons; [exact (K _ _ (H 4%nat ltac:(lia))) |].
    apply Forall2_cons; [exact (K _ _ (H 5%nat ltac:(lia))) |].
    apply Forall2_cons; [exact (K _ _ (H 6%nat ltac:(lia))) |].
    apply Forall2_cons; [exact (K _ _ (H 7%nat ltac:(lia))) |].
    apply Forall2_cons; [exact (K _ _ (H 8%nat ltac:(lia))) |].
    apply Forall2_cons; [exact (K _ _ (H 9%nat ltac:(lia))) |].
    apply Forall2_nil.
  - intros H. split; [exact (fb_length _ _ H) |]. apply fb_inv in H. destruct H as (f0 & f1 & f2 & f3 & f4 & f5 & f6 & f7 & f8 & f9 & -> & He & Ho). inv_forall He. inv_forall Ho.
    assert (K : forall x w, - (n * w / 100) <= x <= n * w / 100 -> 100 * Z.abs x <= n * w). { intros x w Hx. pose proof (Z.mul_div_le (n * w) 100 ltac:(lia)). lia. }
    intros i I. do 10 (destruct i as [|i]; [cbn [nth Nat.even]; apply K; lia |]). lia.
Qed.
Lemma fe_value_fe h : length h = 10%nat -> fe_value h = fe h.
Proof. intros L. destruct (list10 _ L) as (f0 & f1 & f2 & f3 & f4 & f5 & f6 & f7 & f8 & f9 & ->). unfold fe_value, fe, fw. cbn [dot nth]. ring. Qed.
Lemma value_eq h z : bounded 3200 h -> feF h = of_Z z -> eqmod (fe_value h) z.
Proof. intros [L _] H. rewrite (fe_value_fe h L). apply of_Z_eq. exact H. Qed.
Lemma feF_value n h : bounded n h -> feF h = of_Z (fe_value h). Proof. intros [L _]. rewrite (fe_value_fe h L). reflexivity. Qed.
Lemma b3200 n h : n <= 3200 -> fb n h -> bounded 3200 h. Proof. intros N H. apply bounded_fb. exact (fb_weaken n _ h N H). Qed.
Theorem C46_linear : forall n m f g, 0 <= n -> 0 <= m -> n + m <= 3200 -> bounded n f -> bounded m g ->
  (bounded (n + m) (FeAdd f g) /\ eqmod (fe_value (FeAdd f g)) (fe_value f + fe_value g)) /\
  (bounded (n + m) (FeSub f g) /\ eqmod (fe_value (FeSub f g)) (fe_value f - fe_value g)) /\
  (bounded n (FeNeg f) /\ eqmod (fe_value (FeNeg f)) (- fe_value f)).
Proof.
  intros n m f g N M NM Hf Hg. pose proof (feF_value n f Hf) as Vf. pose proof (feF_value m g Hg) as Vg. apply bounded_fb in Hf, Hg.
  destruct (FeAdd_spec n m f g N M NM Hf Hg) as [A1 A2]. destruct (FeSub_spec n m f g N M NM Hf Hg) as [S1 S2]. assert (N' : 0 <= n <= 3200) by lia. destruct (FeNeg_spec n f N' Hf) as [G1 G2]. rewrite Vf, Vg in A2, S2. rewrite Vf in G2.
  split; [|split]; (split; [apply bounded_fb; assumption |]); apply value_eq.
  - exact (b3200 _ _ NM A1). - rewrite of_Z_add. exact A2. - exact (b3200 _ _ NM S1). - rewrite of_Z_sub. exact S2. - exact (b3200 _ _ (proj2 N') G1). - rewrite of_Z_opp. exact G2.
Qed.
Print Assumptions C46_linear.
Theorem C46_products : forall f g, bounded 330 f -> bounded 330 g ->
  (bounded 101 (FeMul f g) /\ eqmod (fe_value (FeMul f g)) (fe_value f * fe_value g)) /\
  (bounded 101 (FeSquare f) /\ eqmod (fe_value (FeSquare f)) (fe_value f * fe_value f)) /\
  (bounded 101 (FeSquare2 f) /\ eqmod (fe_value (FeSquare2 f)) (2 * (fe_value f * fe_value f))).
Proof.
  intros f g Hf Hg. pose proof (feF_value _ f Hf) as Vf. pose proof (feF_value _ g Hg) as Vg. apply bounded_fb in Hf, Hg. assert (L : 330 <= 330) by lia. assert (L' : 101 <= 3200) by lia.
  destruct (FeMul_spec 330 330 f g L L Hf Hg) as [A1 A2]. destruct (FeSquare_spec 330 f L Hf) as [S1 S2]. destruct (FeSquare2_spec 330 f L Hf) as [G1 G2]. rewrite Vf, Vg in A2. rewrite Vf in S2, G2.
  split; [|split]; (split; [apply bounded_fb; assumption |]); apply value_eq.
  - exact (b3200 _ _ L' A1). - rewrite of_Z_mul. exact A2. - exact (b3200 _ _ L' S1). - rewrite of_Z_mul. exact S2. - exact (b3200 _ _ L' G1). - rewrite !of_Z_mul. exact G2.
Qed.
Print Assumptions C46_products.
(** After every statement, wrap-around and exact integer arithmetic agree; the final limbs fit into 32 bits. *)
Theorem C46_no_overflow : forall f g, bounded 330 f -> bounded 330 g ->
  no_overflow mul_code (mul_init f g) /\ combine_exact (skipn mul_out (run id_wrap mul_code (mul_init f g))) /\
  no_overflow square_code (square_init f) /\ combine_exact (skipn square_out (run id_wrap square_code (square_init f))) /\
  no_overflow double_code (skipn square_out (run id_wrap square_code (square_init f))) /\
  combine_exact (run id_wrap double_code (skipn square_out (run id_wrap square_code (square_init f)))) /\
  (forall i, (i < 10)%nat -> - 2 ^ 31 <= nth i f 0 + nth i g 0 < 2 ^ 31 /\ - 2 ^ 31 <= nth i f 0 - nth i g 0 < 2 ^ 31 /\ - 2 ^ 31 <= - nth i f 0 < 2 ^ 31).
Proof.
  intros f g Hf Hg. pose proof Hf as [_ Bf]. pose proof Hg as [_ Bg]. apply bounded_fb in Hf, Hg. assert (L : 330 <= 330) by lia. destruct (FeMul_no_overflow 330 330 f g L L Hf Hg) as [A B]. destruct (FeSquare_no_overflow 330 f L Hf) as (C & D & E & G).
  repeat (split; [assumption |]). intros i I. specialize (Bf i I). specialize (Bg i I). destruct (Nat.even i); pows; lia.
Qed.
Print Assumptions C46_no_overflow.
Theorem C46_invert : forall f, bounded 330 f -> bounded 101 (FeInvert f) /\
  (fe_value f mod p25519 <> 0 -> eqmod (fe_value f * fe_value (FeInvert f)) 1) /\ (fe_value f mod p25519 = 0 -> eqmod (fe_value (FeInvert f)) 0).
Proof.
  intros f Hf. pose proof (feF_value _ f Hf) as Vf. apply bounded_fb in Hf. assert (L : 330 <= 330) by lia. destruct (FeInvert_spec 330 f L Hf) as [A1 A2]. split; [apply bounded_fb; exact A1 |].
  assert (A3 : bounded 101 (FeInvert f)) by (apply bounded_fb; exact A1). pose proof (feF_value _ _ A3) as Vi. rewrite Vf in A2. split; intros H.
  - apply of_Z_eq. rewrite of_Z_mul, <- Vi, A2. assert (C : forall x y, fmul x y = fmul y x) by (intros; ring). rewrite C. apply finv_l. apply of_Z_nz. exact H.
  - apply of_Z_eq. rewrite <- Vi, A2. replace (of_Z (fe_value f)) with f0; [exact finv_0 |]. symmetry. apply of_Z_eq. rewrite H. rewrite Z.mod_0_l by exact p_nz. reflexivity.
Qed.
Print Assumptions C46_invert.
(** Limbs at the documented bounds *)
Example C46_example : let f := [55364812; -27682406; 55364812; -27682406; 55364812; -27682406; 55364812; -27682406; 55364812; -27682406] in
  bounded 330 f /\ FeAdd f f <> f /\ length (FeMul f f) = 10%nat.
Proof.
  cbv zeta. split; [|split; [vm_compute; discriminate | reflexivity]]. split; [reflexivity |]. intros i I. do 10 (destruct i as [|i]; [vm_compute; discriminate |]). lia.
Qed.

(** ** C47: field encodings *)
Theorem C47_encode : forall h, bounded 600 h -> fst (FeToBytes h) = le32 (fe_value h mod p25519).
Proof. intros h H. pose proof (feF_value _ h H) as V. apply bounded_fb in H. assert (L : 600 <= 600) by lia. destruct (FeToBytes_spec 600 h L H) as [E _]. rewrite E, V. reflexivity. Qed.
Print Assumptions C47_encode.
Theorem C47_canonical : forall h k, bounded 600 h -> bounded 600 k -> (fst (FeToBytes h) = fst (FeToBytes k) <-> eqmod (fe_value h) (fe_value k)).
Proof.
  intros h k H K. rewrite (C47_encode h H), (C47_encode k K). unfold eqmod. split; [|intros ->; reflexivity]. intros E. apply (f_equal le_value) in E.
  assert (P : 0 < p25519 < 2 ^ 256) by (rewrite p_def; lia). rewrite !le_value_le32 in E by (match goal with |- context [?a mod ?b] => pose proof (Z.mod_pos_bound a b ltac:(lia)) end; lia). exact E.
Qed.
Print Assumptions C47_canonical.
Theorem C47_decode : forall s, bytes32 s -> bounded 101 (FeFromBytes s) /\ eqmod (fe_value (FeFromBytes s)) (le_value s mod 2 ^ 255).
Proof.
  intros s [B L]. destruct (FeFromBytes_spec s B L) as [A1 A2]. assert (A3 : bounded 101 (FeFromBytes s)) by (apply bounded_fb; exact A1). split; [exact A3 |]. apply value_eq; [exact (b3200 101 _ ltac:(lia) A1) | exact A2].
Qed.
Print Assumptions C47_decode.
(** Decoding what was encoded gives an element of the same value. *)
Theorem C47_roundtrip : forall h, bounded 600 h -> eqmod (fe_value (FeFromBytes (fst (FeToBytes h)))) (fe_value h).
Proof.
  intros h H. rewrite (C47_encode h H). assert (P : 0 < p25519 < 2 ^ 255) by (rewrite p_def; lia). pose proof (Z.mod_pos_bound (fe_value h) p25519 ltac:(lia)) as M.
  destruct (C47_decode (le32 (fe_value h mod p25519)) (conj (le32_bytes _) (le32_length _))) as [_ E]. rewrite le_value_le32 in E by lia. rewrite (Z.mod_small _ (2 ^ 255)) in E by lia. unfold eqmod in *. rewrite E. apply Z.mod_mod. exact p_nz.
Qed.
Print Assumptions C47_roundtrip.
Theorem C47_tests : forall h, bounded 600 h -> fst (FeIsNegative h) = (fe_value h mod p25519) mod 2 /\ (fst (FeIsNonZero h) = if fe_value h mod p25519 =? 0 then 0 else 1).
Proof.
  intros h H. pose proof (feF_value _ h H) as V. apply bounded_fb in H. assert (L : 600 <= 600) by lia. rewrite (FeIsNegative_spec 600 h L H), (FeIsNonZero_spec 600 h L H), V. cbn [fst]. split; [reflexivity |].
  destruct (F_dec (of_Z (fe_value h)) f0) as [E | E], (Z.eqb_spec (fe_value h mod p25519) 0) as [Q | Q]; try reflexivity; exfalso.
  - apply Q. apply of_Z_eq in E. rewrite Z.mod_0_l in E by exact p_nz. exact E.
  - apply E. apply of_Z_eq. rewrite Q. rewrite Z.mod_0_l by exact p_nz. reflexivity.
Qed.
Print Assumptions C47_tests.
(** 19 and 2^255 encode the same element; its bytes are those of 19. *)
Example C47_example : FeFromBytes (19 :: repeat 0 31) <> FeFromBytes (repeat 0 31 ++ [128]) /\ fst (FeToBytes [0; 0; 0; 0; 0; 0; 0; 0; 0; 33554432]) = 19 :: repeat 0 31.
Proof. split; [vm_compute; discriminate | vm_compute; reflexivity]. Qed.

(** ** C48: point formulas. The representation relations of Proofs/PointFacts.v are, for a curve point P = (x, y):
    projective (x z, y z, z), extended (x z, y z, z, x y z), completed ((x z, z), (y t, t)),
    cached ((y + x) z, (y - x) z, z, 2 d x y z), precomputed (y + x, y - x, 2 d x y), with z, t <> 0 and the limbs bounded. *)
Theorem C48_formulas :
  (forall p P, repr_proj p P -> repr_comp (Proj_Double p) (padd P P)) /\
  (forall p P, repr_ext p P -> repr_comp (Ext_Double p) (padd P P)) /\
  (forall p q P Q, repr_ext p P -> repr_cached q Q -> repr_comp (geAdd p q) (padd P Q)) /\
  (forall p q P Q, repr_ext p P -> repr_cached q Q -> repr_comp (geSub p q) (padd P (pneg Q))) /\
  (forall p q P Q, repr_ext p P -> repr_pre q Q -> repr_comp (geMixedAdd p q) (padd P Q)) /\
  (forall p q P Q, repr_ext p P -> repr_pre q Q -> repr_comp (geMixedSub p q) (padd P (pneg Q))) /\
  (forall p P, repr_ext p P -> repr_cached (Ext_ToCached p) P /\ repr_proj (Ext_ToProjective p) P) /\
  (forall p P, repr_comp p P -> repr_proj (Comp_ToProjective p) P /\ repr_ext (Comp_ToExtended p) P) /\
  repr_proj Proj_Zero pzero /\ repr_ext Ext_Zero pzero /\ repr_pre Pre_Zero pzero.
Proof.
  split; [exact Proj_Double_spec |]. split; [exact Ext_Double_spec |]. split; [exact geAdd_spec |]. split; [exact geSub_spec |]. split; [exact geMixedAdd_spec |]. split; [exact geMixedSub_spec |].
  split; [intros p P H; split; [exact (Ext_ToCached_spec p P H) | exact (Ext_ToProjective_spec p P H)] |]. split; [intros p P H; split; [exact (Comp_ToProjective_spec p P H) | exact (Comp_ToExtended_spec p P H)] |].
  split; [exact repr_proj_zero |]. split; [exact repr_ext_zero | exact repr_pre_zero].
Qed.
Print Assumptions C48_formulas.
(** The addition law is a commutative group law on the curve, without exceptional cases. *)
Theorem C48_group : forall P Q R, on_curve P -> on_curve Q -> on_curve R ->
  on_curve (padd P Q) /\ on_curve (pneg P) /\ on_curve pzero /\ padd P Q = padd Q P /\ padd (padd P Q) R = padd P (padd Q R) /\ padd P pzero = P /\ padd P (pneg P) = pzero.
Proof.
  intros P Q R CP CQ CR. split; [exact (padd_on P Q CP CQ) |]. split; [exact (pneg_on P CP) |]. split; [exact pzero_on |]. split; [exact (padd_comm P Q) |]. split; [exact (padd_assoc P Q R CP CQ CR) |]. split; [exact (padd_0_r P) | exact (padd_neg_r P CP)].
Qed.
Print Assumptions C48_group.
(** The denominators of the addition law never vanish. *)
Theorem C48_complete : forall P Q, on_curve P -> on_curve Q ->
  (1 + fd * px P * px Q * py P * py Q <> 0)%F /\ (1 - fd * px P * px Q * py P * py Q <> 0)%F.
Proof. intros [x1 y1] [x2 y2] C1 C2. apply mk_on in C1, C2. cbn [px py]. split; [exact (dx_nz _ _ _ _ C1 C2) | exact (dy_nz _ _ _ _ C1 C2)]. Qed.
Print Assumptions C48_complete.
(** An extended element represents at most one point. *)
Theorem C48_functional : forall p P Q, repr_ext p P -> repr_ext p Q -> P = Q.
Proof.
  intros p [x y] [x' y'] [_ (z & Z & X & Y & ZZ & _)] [_ (z' & Z' & X' & Y' & ZZ' & _)]. cbn [px py] in *. destruct X as [_ X], Y as [_ Y], ZZ as [_ ZZ], X' as [_ X'], Y' as [_ Y'], ZZ' as [_ ZZ']. rewrite ZZ in ZZ'. subst z'.
  apply point_eq; apply (f_cancel _ _ z Z); [rewrite <- X; exact X' | rewrite <- Y; exact Y'].
Qed.
Print Assumptions C48_functional.
Example C48_example : repr_pre (nth 1 (nth 0 base_table []) pre0) (padd base_point base_point).
Proof. pose proof (base_table_spec 0 1 ltac:(lia) ltac:(lia)) as H. change ((Z.of_nat 1 + 1) * 256 ^ Z.of_nat 0) with (1 + 1) in H. rewrite zmul_add in H by exact base_on. rewrite zmul_1 in H. exact H. Qed.

(** ** C49: multiples of the base point *)
Theorem C49_scalarmult : forall a, bytes32 a -> nth 31 a 0 <= 127 ->
  repr_ext (GeScalarMultBase a) (zmul (le_value a) base_point) /\ Ext_ToBytes (GeScalarMultBase a) = encode_point (zmul (le_value a) base_point).
Proof. intros a [B L] T. split; [exact (GeScalarMultBase_spec a B L T) | exact (GeScalarMultBase_bytes a B L T)]. Qed.
Print Assumptions C49_scalarmult.
(** The base point is on the curve, has y = 4/5 and even x, and its order divides ell. *)
Theorem C49_base : on_curve base_point /\ (of_Z 5 * py base_point = of_Z 4)%F /\ fval (px base_point) mod 2 = 0 /\ base_point <> pzero /\ zmul ell base_point = pzero.
Proof.
  split; [exact base_on |]. split; [exact (proj1 base_y) |]. split; [exact (proj2 base_y) |]. split; [|exact ell_base]. intros E. assert (X : fval (px base_point) = 0) by (rewrite E; reflexivity). revert X. vm_compute. discriminate.
Qed.
Print Assumptions C49_base.
(** The precomputed tables *)
Theorem C49_tables : (forall i j, (i < 32)%nat -> (j < 8)%nat -> repr_pre (nth j (nth i base_table []) pre0) (zmul ((Z.of_nat j + 1) * 256 ^ Z.of_nat i) base_point)) /\
  (forall j, (j < 8)%nat -> repr_pre (nth j bi_table pre0) (zmul (2 * Z.of_nat j + 1) base_point)).
Proof. split; [exact base_table_spec | exact bi_table_spec]. Qed.
Print Assumptions C49_tables.
Example C49_example : let a := repeat 77 32 in bytes32 a /\ nth 31 a 0 <= 127 /\ le_value a <> 0.
Proof.
  cbv zeta. split; [split; [apply Forall_forall; intros x H; apply repeat_spec in H; subst x; unfold is_byte; lia | reflexivity] |]. split; [cbn; lia | vm_compute; discriminate].
Qed.

(** ** C52: point decoding *)
Theorem C52_roundtrip : forall p P, repr_ext p P -> exists e, Ext_FromBytes (Ext_ToBytes p) = Some e /\ repr_ext e P.
Proof. intros p P R. rewrite (Ext_ToBytes_spec p P R). apply FromBytes_encode. exact (proj1 R). Qed.
Print Assumptions C52_roundtrip.
Theorem C52_decode : forall s, bytes32 s ->
  (Ext_FromBytes s = None <-> ~ exists P, on_curve P /\ py P = of_Z (le_value s mod 2 ^ 255)) /\
  (forall e, Ext_FromBytes s = Some e -> exists P, repr_ext e P /\ py P = of_Z (le_value s mod 2 ^ 255) /\ (fval (px P) mod 2 = le_value s / 2 ^ 255 \/ px P = f0)).
Proof.
  intros s [B L]. pose proof (FromBytes_spec s B L) as H. destruct (Ext_FromBytes s) as [e |]; split.
  - split; [discriminate |]. intros N. exfalso. apply N. destruct H as (P & C & Y & _). exists P. split; [exact C | exact Y].
  - intros e' E. injection E as <-. destruct H as (P & _ & Y & S & R). exists P. split; [exact R |]. split; [exact Y | exact S].
  - split; [|reflexivity]. intros _ (P & C & Y). exact (H P C Y).
  - discriminate.
Qed.
Print Assumptions C52_decode.
(** Encodings are injective. *)
Theorem C52_injective : forall P Q, on_curve P -> on_curve Q -> encode_point P = encode_point Q -> P = Q.
Proof.
  intros P Q CP CQ E. destruct (FromBytes_encode P CP) as (e & E1 & R1). destruct (FromBytes_encode Q CQ) as (e' & E2 & R2). rewrite E, E2 in E1. injection E1 as ->. exact (C48_functional _ _ _ R1 R2).
Qed.
Print Assumptions C52_injective.
(** C49: the order of the base point is exactly the prime ell, so two scalars give the same point exactly when they agree modulo ell. *)
Theorem C49_order : prime ell /\ (forall n, zmul n base_point = pzero <-> (ell | n)) /\
  forall a b, bytes32 a -> bytes32 b -> nth 31 a 0 <= 127 -> nth 31 b 0 <= 127 ->
    (Ext_ToBytes (GeScalarMultBase a) = Ext_ToBytes (GeScalarMultBase b) <-> le_value a mod ell = le_value b mod ell).
Proof.
  split; [exact prime_ell |]. split; [exact base_order |]. intros a b Ba Bb Ta Tb.
  rewrite (proj2 (C49_scalarmult a Ba Ta)), (proj2 (C49_scalarmult b Bb Tb)), <- base_mult_eq. split; intros E.
  - apply C52_injective; [apply zmul_on, base_on | apply zmul_on, base_on | exact E].
  - rewrite E. reflexivity.
Qed.
Print Assumptions C49_order.
(** The base point decodes from its usual encoding; y = 2 belongs to no point. *)
Example C52_example : encode_point base_point = 88 :: repeat 102 31.
Proof. vm_compute. reflexivity. Qed.
Goal Ext_FromBytes (2 :: repeat 0 31) = None. vm_compute. reflexivity. Abort.

(** ** C53: double scalar multiplication *)
Theorem C53_partial : forall a e A b, bytes32 a -> bytes32 b -> le_value a <= 2 ^ 255 -> le_value b <= 2 ^ 255 -> repr_ext e A ->
  repr_proj (GeDoubleScalarMultVartime a e b) (padd (zmul (le_value a) A) (zmul (le_value b) base_point)).
Proof. intros a e A b [Ba La] [Bb Lb] Ra Rb R. exact (DoubleScalarMult_spec a e A b Ba La Bb Lb Ra Rb R). Qed.
Print Assumptions C53_partial.
(** In general a scalar above 2^255 may lose 2^256, a carry out of its top digit, and never anything else. *)
Theorem C53_mod : forall a e A b, bytes32 a -> bytes32 b -> repr_ext e A -> exists x y,
  (x = le_value a \/ (2 ^ 255 < le_value a /\ x = le_value a - 2 ^ 256)) /\ (y = le_value b \/ (2 ^ 255 < le_value b /\ y = le_value b - 2 ^ 256)) /\
  repr_proj (GeDoubleScalarMultVartime a e b) (padd (zmul x A) (zmul y base_point)).
Proof.
  intros a e A b [Ba La] [Bb Lb] R. pose proof (DoubleScalarMult_gen a e A b Ba La Bb Lb R) as G. destruct (slide_lost a Ba La) as [Va _]. destruct (slide_lost b Bb Lb) as [Vb _].
  exists (val2 (slide a)), (val2 (slide b)). split; [exact Va |]. split; [exact Vb | exact G].
Qed.
Print Assumptions C53_mod.
(** The odd scalars among the last fifteen do lose it, for every point. *)
Theorem C53_carry_refuted : forall a e A b, bytes32 a -> bytes32 b -> repr_ext e A -> 2 ^ 256 - 15 <= le_value a -> le_value a mod 2 = 1 -> le_value b <= 2 ^ 255 ->
  repr_proj (GeDoubleScalarMultVartime a e b) (padd (zmul (le_value a - 2 ^ 256) A) (zmul (le_value b) base_point)).
Proof.
  intros a e A b [Ba La] [Bb Lb] R Ra O Rb. pose proof (DoubleScalarMult_gen a e A b Ba La Bb Lb R) as G. destruct (slide_lost a Ba La) as [_ Va]. destruct (slide_value b Bb Lb) as (_ & Vb & _).
  unfold comb in G. rewrite (Va Ra O), (Vb Rb) in G. exact G.
Qed.
Print Assumptions C53_carry_refuted.
Lemma repr_proj_functional p P Q : repr_proj p P -> repr_proj p Q -> P = Q.
Proof.
  intros [_ (z & Z & X & Y & ZZ)] [_ (z' & Z' & X' & Y' & ZZ')]. destruct P as [x y], Q as [x' y']. cbn [px py] in *. destruct X as [_ X], Y as [_ Y], ZZ as [_ ZZ], X' as [_ X'], Y' as [_ Y'], ZZ' as [_ ZZ']. rewrite ZZ in ZZ'. subst z'.
  apply point_eq; apply (f_cancel _ _ z Z); [rewrite <- X; exact X' | rewrite <- Y; exact Y'].
Qed.
Definition bez_u : Z := 4458503529701987551646482192314240623644693141688353256590997718326214331684.
Definition bez_w : Z := (-71336056475231800826343715077027849978041630819377026201054086228062141447707).
Lemma pow256_base : zmul (2 ^ 256) base_point <> pzero.
Proof.
  intros H. destruct C49_base as (_ & _ & _ & N & EL). apply N. assert (E : bez_u * 2 ^ 256 + bez_w * ell = 1) by (vm_compute; reflexivity).
  rewrite <- (zmul_1 base_point), <- E. rewrite zmul_add, !zmul_mul by exact base_on. rewrite H, EL. rewrite <- (zmul_0 base_point), <- !zmul_mul, !Z.mul_0_r, zmul_0 by exact base_on. exact (padd_0_r pzero).
Qed.
Definition C53_a : bytes := repeat 255 32.
Definition C53_b : bytes := repeat 0 32.
Lemma slide_ones : val2 (slide C53_a) = -1 /\ val2 (slide C53_b) = 0. Proof. split; vm_compute; reflexivity. Qed.
(** For a = 2^256 - 1, b = 0 and A = B the result is -B instead of [2^256 - 1]B. *)
Theorem C53_refuted : exists a e A b, bytes32 a /\ bytes32 b /\ repr_ext e A /\
  ~ repr_proj (GeDoubleScalarMultVartime a e b) (padd (zmul (le_value a) A) (zmul (le_value b) base_point)).
Proof.
  assert (B1 : bytes32 (1 :: repeat 0 31)). { split; [|reflexivity]. constructor; [unfold is_byte; lia |]. apply Forall_forall. intros x H. apply repeat_spec in H. subst x. unfold is_byte. lia. }
  destruct (C49_scalarmult _ B1 ltac:(cbn; lia)) as [R _]. change (le_value (1 :: repeat 0 31)) with 1 in R. rewrite zmul_1 in R. set (e := GeScalarMultBase (1 :: repeat 0 31)) in *. clearbody e.
  assert (Ba : bytes32 C53_a) by (split; [apply Forall_forall; intros x H; apply repeat_spec in H; subst x; unfold is_byte; lia | apply repeat_length]).
  assert (Bb : bytes32 C53_b) by (split; [apply Forall_forall; intros x H; apply repeat_spec in H; subst x; unfold is_byte; lia | apply repeat_length]).
  exists C53_a, e, base_point, C53_b. split; [exact Ba |]. split; [exact Bb |]. split; [exact R |]. intros H.
  pose proof (DoubleScalarMult_gen C53_a e base_point C53_b (proj1 Ba) (proj2 Ba) (proj1 Bb) (proj2 Bb) R) as G. destruct slide_ones as [S1 S2]. rewrite S1, S2 in G. unfold comb in G.
  assert (Va : le_value C53_a = 2 ^ 256 - 1) by (vm_compute; reflexivity). assert (Vb : le_value C53_b = 0) by (vm_compute; reflexivity). rewrite Va, Vb in H. clear S1 S2 Va Vb. set (g := GeDoubleScalarMultVartime C53_a e C53_b) in *. clearbody g.
  pose proof (repr_proj_functional _ _ _ H G) as E. rewrite zmul_0, !padd_0_r in E. apply pow256_base. replace (2 ^ 256) with ((2 ^ 256 - 1) + 1) by ring. rewrite zmul_add by exact base_on. rewrite E. rewrite <- zmul_add by exact base_on. exact (zmul_0 base_point).
Qed.
Print Assumptions C53_refuted.
Example C53_example : let a := repeat 77 32 in bytes32 a /\ le_value a <= 2 ^ 255 /\
  repr_ext (GeScalarMultBase a) (zmul (le_value a) base_point) /\ zmul (le_value a) base_point <> pzero.
Proof.
  cbv zeta. assert (B : bytes32 (repeat 77 32)) by (split; [apply Forall_forall; intros x H; apply repeat_spec in H; subst x; unfold is_byte; lia | reflexivity]).
  split; [exact B |]. split; [vm_compute; discriminate |]. split; [apply C49_scalarmult; [exact B | cbn; lia] |].
  intros E. apply base_order in E. apply Z.mod_divide in E; [revert E; vm_compute; discriminate | vm_compute; discriminate].
Qed.

(** ** C54: constant-time selection *)
Theorem C54_cmove : forall f g, length f = 10%nat -> length g = 10%nat -> FeCMove f g 0 = f /\ FeCMove f g 1 = g.
Proof. intros f g F G. split; [apply FeCMove_0 | apply FeCMove_1]; congruence. Qed.
Print Assumptions C54_cmove.
Definition well_formed (q : PreComputedGroupElement) : Prop := length (yPlusX q) = 10%nat /\ length (yMinusX q) = 10%nat /\ length (xy2d q) = 10%nat.
Theorem C54_select : forall row b, length row = 8%nat -> Forall well_formed row -> -8 <= b <= 8 ->
  selectRow row b = if b =? 0 then mkPre FeOne FeOne FeZero
                    else let q := nth (Z.to_nat (Z.abs b) - 1) row pre0 in
                         if b <? 0 then mkPre (yMinusX q) (yPlusX q) (FeNeg (xy2d q)) else q.
Proof.
  intros row b L W B. rewrite (selectRow_spec row b L W B). destruct (Z.eqb_spec b 0) as [-> | N]; [reflexivity |]. cbv zeta. destruct (Z.ltb_spec 0 b), (Z.ltb_spec b 0); try lia; [rewrite Z.abs_eq by lia; reflexivity | rewrite Z.abs_neq by lia; reflexivity].
Qed.
Print Assumptions C54_select.
(** In terms of points: the entry for digit b in row i represents [b * 256^i]B. *)
Theorem C54_point : forall i b, (i < 32)%nat -> -8 <= b <= 8 -> repr_pre (selectPoint i b) (zmul (b * 256 ^ Z.of_nat i) base_point).
Proof. exact selectPoint_spec. Qed.
Print Assumptions C54_point.
Theorem C54_tests : forall b c, 0 <= b < 2 ^ 31 -> 0 <= c < 2 ^ 31 -> (equal b c = if b =? c then 1 else 0) /\ (forall x, - 2 ^ 31 <= x < 2 ^ 31 -> negative x = if x <? 0 then 1 else 0).
Proof. intros b c B C. split; [exact (equal_spec b c B C) | exact negative_spec]. Qed.
Print Assumptions C54_tests.
Example C54_example : FeCMove [1; -2; 3; -4; 5; -6; 7; -8; 9; -10] [2147483647; -2147483648; 0; 1; 2; 3; 4; 5; 6; 7] 1 = [2147483647; -2147483648; 0; 1; 2; 3; 4; 5; 6; 7].
Proof. vm_compute. reflexivity. Qed.
