(** The point formulas of Model/Edwards.v compute the group law on the points represented. *)
From Coq Require Import Ring Field.
From Verif.Model Require Import Base Limb EdwardsTable EdwardsCode Edwards.
From Verif.Spec Require Import EdSpec.
From Verif.Proofs Require Import Util LimbFacts RadixFacts FieldFacts CurveFacts GroupFacts FieldEl FieldBytes.
Open Scope F_scope.

(** A field element with its bound (in per cent) and value *)
Definition fv (n : Z) (h : FieldElement) (x : F) : Prop := fb n h /\ feF h = x.
Lemma fv_eq n h x y : fv n h x -> x = y -> fv n h y. Proof. intros H <-. exact H. Qed.
Lemma fv_weaken n m h x : (n <= m)%Z -> fv n h x -> fv m h x.
Proof. intros L [A B]. split; [apply (fb_weaken n); assumption | exact B]. Qed.
Lemma fv_add n m f g x y : (0 <= n)%Z -> (0 <= m)%Z -> (n + m <= 3200)%Z -> fv n f x -> fv m g y -> fv (n + m) (FeAdd f g) (x + y).
Proof. intros N M L [A <-] [B <-]. exact (FeAdd_spec n m f g N M L A B). Qed.
Lemma fv_sub n m f g x y : (0 <= n)%Z -> (0 <= m)%Z -> (n + m <= 3200)%Z -> fv n f x -> fv m g y -> fv (n + m) (FeSub f g) (x - y).
Proof. intros N M L [A <-] [B <-]. exact (FeSub_spec n m f g N M L A B). Qed.
Lemma fv_neg n f x : (0 <= n <= 3200)%Z -> fv n f x -> fv n (FeNeg f) (- x).
Proof. intros L [A <-]. exact (FeNeg_spec n f L A). Qed.
Lemma fv_mul n m f g x y : (n <= 330)%Z -> (m <= 330)%Z -> fv n f x -> fv m g y -> fv 101 (FeMul f g) (x * y).
Proof. intros N M [A <-] [B <-]. exact (FeMul_spec n m f g N M A B). Qed.
Lemma fv_square n f x : (n <= 330)%Z -> fv n f x -> fv 101 (FeSquare f) (x * x).
Proof. intros N [A <-]. exact (FeSquare_spec n f N A). Qed.
Lemma fv_square2 n f x : (n <= 330)%Z -> fv n f x -> fv 101 (FeSquare2 f) (of_Z 2 * (x * x)).
Proof. intros N [A <-]. exact (FeSquare2_spec n f N A). Qed.
Lemma fv_invert n f x : (n <= 330)%Z -> fv n f x -> fv 101 (FeInvert f) (finv x).
Proof. intros N [A <-]. exact (FeInvert_spec n f N A). Qed.
Lemma fv_pow n f x : (n <= 330)%Z -> fv n f x -> fv 101 (fePow22523 f) (fpow_pos x (Z.to_pos ((p25519 - 5) / 8))).
Proof. intros N [A <-]. exact (fePow22523_spec n f N A). Qed.
Lemma fv_tobytes n f x : (n <= 600)%Z -> fv n f x -> fst (FeToBytes f) = le32 (fval x) /\ fv 200 (snd (FeToBytes f)) x.
Proof. intros N [A <-]. destruct (FeToBytes_spec n f N A) as (B & C & D). split; [exact B | split; [exact C | exact D]]. Qed.
Lemma fv_const h (z : Z) : forallb (fun '(v, i) => (fst i <=? v)%Z && (v <=? snd i)%Z) (combine h (lim 101)) = true -> length h = 10%nat -> fe h = z -> fv 101 h (of_Z z).
Proof.
  intros H L <-. split; [|exact eq_refl]. unfold fb. change 10%nat with (length (lim 101)) in L. revert h L H. generalize (lim 101). intros l. induction l as [|i l IH]; intros [|v h] L H; cbn [length] in L; try discriminate; constructor.
  - cbn [combine forallb] in H. apply andb_true_iff in H. destruct H as [H _]. apply andb_true_iff in H. destruct H as [H1 H2]. apply Z.leb_le in H1, H2. unfold inI. lia.
  - cbn [combine forallb] in H. apply andb_true_iff in H. destruct H as [_ H]. apply IH; [lia | exact H].
Qed.
Lemma fv_zero : fv 101 FeZero 0.
Proof. apply (fv_const _ 0); reflexivity. Qed.
Lemma fv_one : fv 101 FeOne 1.
Proof. apply (fv_const _ 1); reflexivity. Qed.
Lemma fv_d : fv 101 const_d fd.
Proof.
  apply (fv_eq _ _ (of_Z (fe const_d))); [apply fv_const; reflexivity |]. rewrite d_eq. apply of_Z_eq. rewrite p_def. vm_compute. reflexivity.
Qed.
Lemma fv_d2 : fv 101 const_d2 (of_Z 2 * fd).
Proof.
  apply (fv_eq _ _ (of_Z (fe const_d2))); [apply fv_const; reflexivity |]. rewrite d_eq, <- of_Z_mul. apply of_Z_eq. rewrite p_def. vm_compute. reflexivity.
Qed.
Lemma fv_sqrtm1 : exists i, fv 101 SqrtM1 i /\ i * i = - (1).
Proof.
  exists (of_Z (fe SqrtM1)). split; [apply fv_const; reflexivity |]. unfold f1. rewrite <- of_Z_mul, <- of_Z_opp. apply of_Z_eq. rewrite p_def. vm_compute. reflexivity.
Qed.

(** ** Representation of points *)
Definition repr_proj (p : ProjectiveGroupElement) (P : point) : Prop :=
  on_curve P /\ exists z, z <> 0 /\ fv 200 (pX p) (px P * z) /\ fv 101 (pY p) (py P * z) /\ fv 101 (pZ p) z.
Definition repr_ext (p : ExtendedGroupElement) (P : point) : Prop :=
  on_curve P /\ exists z, z <> 0 /\ fv 200 (eX p) (px P * z) /\ fv 101 (eY p) (py P * z) /\ fv 101 (eZ p) z /\ fv 101 (eT p) (px P * py P * z).
Definition repr_comp (p : CompletedGroupElement) (P : point) : Prop :=
  on_curve P /\ exists z t, z <> 0 /\ t <> 0 /\ fv 330 (cX p) (px P * z) /\ fv 330 (cY p) (py P * t) /\ fv 330 (cZ p) z /\ fv 330 (cT p) t.
Definition repr_cached (p : CachedGroupElement) (P : point) : Prop :=
  on_curve P /\ exists z, z <> 0 /\ fv 330 (cyPlusX p) ((py P + px P) * z) /\ fv 330 (cyMinusX p) ((py P - px P) * z) /\ fv 101 (caZ p) z /\ fv 101 (T2d p) (px P * py P * z * (of_Z 2 * fd)).
Definition repr_pre (p : PreComputedGroupElement) (P : point) : Prop :=
  on_curve P /\ fv 101 (yPlusX p) (py P + px P) /\ fv 101 (yMinusX p) (py P - px P) /\ fv 101 (xy2d p) (of_Z 2 * fd * px P * py P).

Lemma mul_nz a b : a <> 0 -> b <> 0 -> a * b <> 0. Proof. intros A B. apply fmul_nz; assumption. Qed.
(** The same rules with the bounds last, for the tactic that walks through a formula. *)
Lemma fv_add' n m f g x y : fv n f x -> fv m g y -> (0 <= n)%Z /\ (0 <= m)%Z /\ (n + m <= 3200)%Z -> fv (n + m) (FeAdd f g) (x + y).
Proof. intros A B (L & M & N). apply fv_add; assumption. Qed.
Lemma fv_sub' n m f g x y : fv n f x -> fv m g y -> (0 <= n)%Z /\ (0 <= m)%Z /\ (n + m <= 3200)%Z -> fv (n + m) (FeSub f g) (x - y).
Proof. intros A B (L & M & N). apply fv_sub; assumption. Qed.
Lemma fv_mul' n m f g x y : fv n f x -> fv m g y -> (n <= 330)%Z /\ (m <= 330)%Z -> fv 101 (FeMul f g) (x * y).
Proof. intros A B (L & M). apply (fv_mul n m); assumption. Qed.
Lemma fv_square' n f x : fv n f x -> (n <= 330)%Z -> fv 101 (FeSquare f) (x * x).
Proof. intros A L. apply (fv_square n); assumption. Qed.
Lemma fv_square2' n f x : fv n f x -> (n <= 330)%Z -> fv 101 (FeSquare2 f) (of_Z 2 * (x * x)).
Proof. intros A L. apply (fv_square2 n); assumption. Qed.
Lemma fv_final n m h x y : fv n h x -> (n <= m)%Z -> x = y -> fv m h y.
Proof. intros H L <-. apply (fv_weaken n); assumption. Qed.
Ltac fvc := lazymatch goal with
  | |- fv _ (FeMul _ _) _ => eapply fv_mul'; [fvc | fvc | split; lia]
  | |- fv _ (FeSquare _) _ => eapply fv_square'; [fvc | lia]
  | |- fv _ (FeSquare2 _) _ => eapply fv_square2'; [fvc | lia]
  | |- fv _ (FeAdd _ _) _ => eapply fv_add'; [fvc | fvc | repeat split; lia]
  | |- fv _ (FeSub _ _) _ => eapply fv_sub'; [fvc | fvc | repeat split; lia]
  | H : fv _ ?h _ |- fv _ ?h _ => exact H
  end.
Ltac fvw := eapply fv_final; [fvc | lia |].
#[global] Opaque FeMul FeSquare FeSquare2 FeAdd FeSub FeNeg FeInvert fePow22523 FeToBytes FeFromBytes.

Lemma frac_mul a b w : b <> 0 -> a / b * (b * w) = a * w.
Proof. intros B. field. exact B. Qed.
#[local] Transparent padd pneg.
Lemma padd_mk x1 y1 x2 y2 : padd (mkP x1 y1) (mkP x2 y2) = mkP ((x1 * y2 + x2 * y1) / (1 + fd * x1 * x2 * y1 * y2)) ((y1 * y2 + x1 * x2) / (1 - fd * x1 * x2 * y1 * y2)).
Proof. exact eq_refl. Qed.
Lemma pneg_mk x y : pneg (mkP x y) = mkP (- x) y. Proof. exact eq_refl. Qed.
#[local] Opaque padd pneg.
Lemma curve_neg x y : curve x y -> curve (- x) y.
Proof. unfold curve. intros H. transitivity (y * y - x * x); [ring |]. rewrite H. ring. Qed.

Theorem Proj_Double_spec p P : repr_proj p P -> repr_comp (Proj_Double p) (padd P P).
Proof.
  destruct P as [x y]. unfold repr_proj, repr_comp. cbn [px py]. intros [C (z & Z & HX & HY & HZ)]. split; [exact (padd_on _ _ C C) |].
  apply mk_on in C. pose proof (dx_nz _ _ _ _ C C) as D1. pose proof (dy_nz _ _ _ _ C C) as D2. unfold curve in C. rewrite padd_mk. cbn [px py].
  exists ((1 + fd * x * x * y * y) * (z * z)), ((1 - fd * x * x * y * y) * (z * z)).
  split; [apply mul_nz; [exact D1 | apply mul_nz; exact Z] |]. split; [apply mul_nz; [exact D2 | apply mul_nz; exact Z] |].
  unfold Proj_Double. cbv zeta. cbn [cX cY cZ cT]. split; [|split; [|split]].
  - fvw. rewrite frac_mul by exact D1. ring.
  - fvw. rewrite frac_mul by exact D2. ring.
  - fvw. transitivity ((y * y - x * x) * (z * z)); [ring |]. rewrite C. ring.
  - fvw. transitivity ((of_Z 2 - (y * y - x * x)) * (z * z)); [ring |]. rewrite C. ring.
Qed.
Theorem Ext_ToProjective_spec p P : repr_ext p P -> repr_proj (Ext_ToProjective p) P.
Proof. intros [C (z & Z & HX & HY & HZ & HT)]. split; [exact C |]. exists z. unfold Ext_ToProjective. cbn [pX pY pZ]. split; [exact Z |]. split; [exact HX |]. split; [exact HY | exact HZ]. Qed.
Theorem Ext_Double_spec p P : repr_ext p P -> repr_comp (Ext_Double p) (padd P P).
Proof. intros H. apply Proj_Double_spec. apply Ext_ToProjective_spec. exact H. Qed.
Theorem Ext_ToCached_spec p P : repr_ext p P -> repr_cached (Ext_ToCached p) P.
Proof.
  intros [C (z & Z & HX & HY & HZ & HT)]. split; [exact C |]. exists z. unfold Ext_ToCached. cbn [cyPlusX cyMinusX caZ T2d]. pose proof fv_d2 as D2. split; [exact Z |]. split; [|split; [|split]].
  - fvw. ring.
  - fvw. ring.
  - exact HZ.
  - fvw. reflexivity.
Qed.
Theorem Comp_ToProjective_spec p P : repr_comp p P -> repr_proj (Comp_ToProjective p) P.
Proof.
  intros [C (z & t & Z & T & HX & HY & HZ & HT)]. split; [exact C |]. exists (z * t). unfold Comp_ToProjective. cbn [pX pY pZ]. split; [apply mul_nz; assumption |]. split; [|split]; fvw; ring.
Qed.
Theorem Comp_ToExtended_spec p P : repr_comp p P -> repr_ext (Comp_ToExtended p) P.
Proof.
  intros [C (z & t & Z & T & HX & HY & HZ & HT)]. split; [exact C |]. exists (z * t). unfold Comp_ToExtended. cbn [eX eY eZ eT]. split; [apply mul_nz; assumption |]. split; [|split; [|split]]; fvw; ring.
Qed.
Lemma add_core x1 y1 x2 y2 w : curve x1 y1 -> curve x2 y2 -> w <> 0 ->
  let zz := (1 + fd * x1 * x2 * y1 * y2) * (of_Z 2 * w) in let tt := (1 - fd * x1 * x2 * y1 * y2) * (of_Z 2 * w) in
  zz <> 0 /\ tt <> 0 /\
  (y1 + x1) * (y2 + x2) * w - (y1 - x1) * (y2 - x2) * w = (x1 * y2 + x2 * y1) / (1 + fd * x1 * x2 * y1 * y2) * zz /\
  (y1 + x1) * (y2 + x2) * w + (y1 - x1) * (y2 - x2) * w = (y1 * y2 + x1 * x2) / (1 - fd * x1 * x2 * y1 * y2) * tt /\
  of_Z 2 * w + of_Z 2 * fd * x1 * y1 * x2 * y2 * w = zz /\ of_Z 2 * w - of_Z 2 * fd * x1 * y1 * x2 * y2 * w = tt.
Proof.
  intros C1 C2 W zz tt. pose proof (dx_nz _ _ _ _ C1 C2) as D1. pose proof (dy_nz _ _ _ _ C1 C2) as D2. unfold zz, tt.
  split; [apply mul_nz; [exact D1 | apply mul_nz; [exact two_nz | exact W]] |]. split; [apply mul_nz; [exact D2 | apply mul_nz; [exact two_nz | exact W]] |].
  rewrite !frac_mul by assumption. split; [ring |]. split; [ring |]. split; ring.
Qed.
Theorem geAdd_spec p q P Q : repr_ext p P -> repr_cached q Q -> repr_comp (geAdd p q) (padd P Q).
Proof.
  destruct P as [x1 y1], Q as [x2 y2]. unfold repr_ext, repr_cached, repr_comp. cbn [px py]. intros [C1 (z1 & Z1 & HX & HY & HZ & HT)] [C2 (z2 & Z2 & HP & HM & HW & HD)]. split; [exact (padd_on _ _ C1 C2) |].
  apply mk_on in C1, C2. destruct (add_core x1 y1 x2 y2 (z1 * z2) C1 C2 (mul_nz _ _ Z1 Z2)) as (N1 & N2 & E1 & E2 & E3 & E4). rewrite padd_mk. cbn [px py].
  eexists _, _. split; [exact N1 |]. split; [exact N2 |]. unfold geAdd. cbv zeta. cbn [cX cY cZ cT]. rewrite <- E1, <- E2, <- E3, <- E4. split; [|split; [|split]]; fvw; ring.
Qed.
Theorem geSub_spec p q P Q : repr_ext p P -> repr_cached q Q -> repr_comp (geSub p q) (padd P (pneg Q)).
Proof.
  destruct P as [x1 y1], Q as [x2 y2]. unfold repr_ext, repr_cached, repr_comp. cbn [px py]. intros [C1 (z1 & Z1 & HX & HY & HZ & HT)] [C2 (z2 & Z2 & HP & HM & HW & HD)]. split; [exact (padd_on _ _ C1 (pneg_on _ C2)) |].
  apply mk_on in C1, C2. apply curve_neg in C2. destruct (add_core x1 y1 (- x2) y2 (z1 * z2) C1 C2 (mul_nz _ _ Z1 Z2)) as (N1 & N2 & E1 & E2 & E3 & E4). rewrite pneg_mk, padd_mk. cbn [px py].
  eexists _, _. split; [exact N1 |]. split; [exact N2 |]. unfold geSub. cbv zeta. cbn [cX cY cZ cT]. rewrite <- E1, <- E2, <- E3, <- E4. split; [|split; [|split]]; fvw; ring.
Qed.
Theorem geMixedAdd_spec p q P Q : repr_ext p P -> repr_pre q Q -> repr_comp (geMixedAdd p q) (padd P Q).
Proof.
  destruct P as [x1 y1], Q as [x2 y2]. unfold repr_ext, repr_pre, repr_comp. cbn [px py]. intros [C1 (z1 & Z1 & HX & HY & HZ & HT)] [C2 (HP & HM & HD)]. split; [exact (padd_on _ _ C1 C2) |].
  apply mk_on in C1, C2. destruct (add_core x1 y1 x2 y2 z1 C1 C2 Z1) as (N1 & N2 & E1 & E2 & E3 & E4). rewrite padd_mk. cbn [px py].
  eexists _, _. split; [exact N1 |]. split; [exact N2 |]. unfold geMixedAdd. cbv zeta. cbn [cX cY cZ cT]. rewrite <- E1, <- E2, <- E3, <- E4. split; [|split; [|split]]; fvw; ring.
Qed.
Theorem geMixedSub_spec p q P Q : repr_ext p P -> repr_pre q Q -> repr_comp (geMixedSub p q) (padd P (pneg Q)).
Proof.
  destruct P as [x1 y1], Q as [x2 y2]. unfold repr_ext, repr_pre, repr_comp. cbn [px py]. intros [C1 (z1 & Z1 & HX & HY & HZ & HT)] [C2 (HP & HM & HD)]. split; [exact (padd_on _ _ C1 (pneg_on _ C2)) |].
  apply mk_on in C1, C2. apply curve_neg in C2. destruct (add_core x1 y1 (- x2) y2 z1 C1 C2 Z1) as (N1 & N2 & E1 & E2 & E3 & E4). rewrite pneg_mk, padd_mk. cbn [px py].
  eexists _, _. split; [exact N1 |]. split; [exact N2 |]. unfold geMixedSub. cbv zeta. cbn [cX cY cZ cT]. rewrite <- E1, <- E2, <- E3, <- E4. split; [|split; [|split]]; fvw; ring.
Qed.
Lemma repr_ext_zero : repr_ext Ext_Zero pzero.
Proof.
  split; [exact pzero_on |]. exists 1. unfold Ext_Zero. cbn [eX eY eZ eT]. split; [exact f1_nz |].
  change (px pzero) with 0. change (py pzero) with 1. pose proof fv_zero as A. pose proof fv_one as B. split; [|split; [|split]]; fvw; ring.
Qed.
Lemma repr_proj_zero : repr_proj Proj_Zero pzero.
Proof.
  split; [exact pzero_on |]. exists 1. unfold Proj_Zero. cbn [pX pY pZ]. split; [exact f1_nz |].
  change (px pzero) with 0. change (py pzero) with 1. pose proof fv_zero as A. pose proof fv_one as B. split; [|split]; fvw; ring.
Qed.

(** ** Encoding *)
Lemma le32_top a b : (0 <= a < 2 ^ 255)%Z -> (0 <= b < 2)%Z -> put (le32 a) 31 (Z.lxor (nth 31 (le32 a) 0%Z) (u8 (Z.shiftl b 7))) = le32 (a + 2 ^ 255 * b).
Proof.
  intros A B. assert (L : length (put (le32 a) 31 (Z.lxor (nth 31 (le32 a) 0%Z) (u8 (Z.shiftl b 7)))) = 32%nat) by (rewrite put_length; apply le32_length).
  assert (T : nth 31 (le32 a) 0%Z = ((a / 2 ^ 248) mod 256)%Z) by reflexivity.
  assert (T2 : (0 <= a / 2 ^ 248 < 128)%Z) by (split; [apply Z.div_pos; lia | apply Z.div_lt_upper_bound; lia]). rewrite T, Z.mod_small by lia.
  set (t := (a / 2 ^ 248)%Z) in *.
  assert (X : Z.lxor t (u8 (Z.shiftl b 7)) = (t + 128 * b)%Z).
  { assert (b = 0 \/ b = 1)%Z as [-> | ->] by lia; [change (u8 (Z.shiftl 0 7)) with 0%Z; rewrite Z.lxor_0_r; lia |]. change (u8 (Z.shiftl 1 7)) with (2 ^ 7)%Z.
    rewrite Z.add_nocarry_lxor; [reflexivity |]. apply Z.bits_inj'. intros n N. rewrite Z.land_spec, Z.bits_0. destruct (Z.eq_dec n 7) as [-> | E].
    - rewrite (Z.bits_above_log2 t 7); [reflexivity | lia |]. destruct (Z.eq_dec t 0) as [-> | ]; [reflexivity |]. apply Z.log2_lt_pow2; lia.
    - change (128 * 1)%Z with (2 ^ 7)%Z. rewrite Z.pow2_bits_false by lia. apply andb_false_r. }
  rewrite X. apply le_value_inj; [| apply le32_bytes | rewrite le32_length; exact L |].
  - assert (PB : forall l i v, bytes_ok l -> is_byte v -> bytes_ok (put l i v)). { intros l. induction l as [|c l IH]; intros [|i] v H1 H2; cbn [put]; auto; inversion_clear H1; constructor; auto. apply IH; auto. } apply PB; [apply le32_bytes | unfold is_byte; lia].
  - rewrite le_value_le32 by lia.
    assert (PV : forall l i v, (i < length l)%nat -> le_value (put l i v) = (le_value l + 256 ^ Z.of_nat i * (v - nth i l 0))%Z).
    { intros l. induction l as [|c l IH]; intros [|i] v H; cbn [length] in H; try lia; cbn [put le_value nth]; [change (Z.of_nat 0) with 0%Z; lia |]. rewrite IH by lia. rewrite Nat2Z.inj_succ, Z.pow_succ_r by lia. ring. }
    rewrite PV by (rewrite le32_length; lia). rewrite le_value_le32 by lia. rewrite T, Z.mod_small by lia. change (256 ^ Z.of_nat 31)%Z with (2 ^ 248)%Z. fold t. change (2 ^ 255)%Z with (2 ^ 248 * 128)%Z. ring.
Qed.
Lemma fval_lt a : (0 <= fval a < 2 ^ 255)%Z.
Proof. pose proof (fval_range a) as R. rewrite p_def in R. lia. Qed.
Lemma xyz_ToBytes_spec X Y Z P z : z <> 0 -> fv 200 X (px P * z) -> fv 101 Y (py P * z) -> fv 101 Z z -> xyz_ToBytes X Y Z = encode_point P.
Proof.
  intros NZ HX HY HZ. unfold xyz_ToBytes. pose proof (fv_invert 101 Z z ltac:(lia) HZ) as HI. pose proof (fv_mul 200 101 _ _ _ _ ltac:(lia) ltac:(lia) HX HI) as Hx. pose proof (fv_mul 101 101 _ _ _ _ ltac:(lia) ltac:(lia) HY HI) as Hy.
  assert (CX : px P * z * finv z = px P) by (field; exact NZ). assert (CY : py P * z * finv z = py P) by (field; exact NZ). rewrite CX in Hx. rewrite CY in Hy.
  destruct (fv_tobytes 101 _ _ ltac:(lia) Hy) as [BY _]. rewrite BY. destruct Hx as [Bx Ex]. rewrite (FeIsNegative_spec 101) by (try lia; exact Bx). cbn [fst]. rewrite Ex.
  unfold encode_point. apply le32_top; [apply fval_lt | apply Z.mod_pos_bound; lia].
Qed.
Theorem Proj_ToBytes_spec p P : repr_proj p P -> Proj_ToBytes p = encode_point P.
Proof. intros [C (z & Z & HX & HY & HZ)]. exact (xyz_ToBytes_spec _ _ _ P z Z HX HY HZ). Qed.
Theorem Ext_ToBytes_spec p P : repr_ext p P -> Ext_ToBytes p = encode_point P.
Proof. intros [C (z & Z & HX & HY & HZ & HT)]. exact (xyz_ToBytes_spec _ _ _ P z Z HX HY HZ). Qed.
