(** Square roots and point decoding. *)
From Coq Require Import Ring Field.
From Verif.Model Require Import Base Limb EdwardsTable EdwardsCode Edwards.
From Verif.Spec Require Import EdSpec.
From Verif.Proofs Require Import Util LimbFacts RadixFacts FieldFacts CurveFacts GroupFacts FieldEl FieldBytes PointFacts.
Open Scope F_scope.

(** ** Roots of u / v *)
Definition e58 : positive := Z.to_pos ((p25519 - 5) / 8).
Lemma e58_full : xO (xO (xI e58)) = Z.to_pos (p25519 - 1).
Proof. unfold e58. rewrite p_def. vm_compute. reflexivity. Qed.
Lemma fpow_pos_mul a b e : fpow_pos (a * b) e = fpow_pos a e * fpow_pos b e.
Proof. induction e as [e IH | e IH |]; cbn [fpow_pos]; try rewrite IH; ring. Qed.
Lemma sq_one c : c * c = 1 -> c = 1 \/ c = - (1).
Proof.
  intros H. destruct (fmul_0 (c - 1) (c + 1)) as [E | E].
  - transitivity (c * c - 1); [ring |]. rewrite H. ring.
  - left. apply fsub_0. exact E.
  - right. apply fsub_0. transitivity (c + 1); [ring |]. exact E.
Qed.
Lemma minus_one_nz : - (1) <> 1.
Proof.
  intros H. apply two_nz. transitivity (1 - - (1)); [ring |]. rewrite H. ring.
Qed.
Definition root_candidate (u v : F) : F := fpow_pos (v * v * v * (v * v * v) * v * u) e58 * (v * v * v) * u.
Lemma root_value u v : v * (root_candidate u v * root_candidate u v) = u * fpow_pos (v * v * v * (v * v * v) * v * u) (xI e58).
Proof. unfold root_candidate. cbn [fpow_pos]. set (k := fpow_pos _ e58). clearbody k. ring. Qed.
Lemma root_cases u v : u <> 0 -> v <> 0 -> let c := fpow_pos (v * v * v * (v * v * v) * v * u) (xI e58) in c = 1 \/ c = - (1) \/ c * c = - (1).
Proof.
  intros U V. set (w := v * v * v * (v * v * v) * v * u). cbv zeta. set (c := fpow_pos w (xI e58)). assert (W : w <> 0) by (subst w; repeat apply mul_nz; assumption).
  assert (C4 : (c * c) * (c * c) = 1) by (subst c; exact (eq_trans (f_equal (fpow_pos w) e58_full) (fermat_F w W))).
  destruct (sq_one _ C4) as [E | E]; [|right; right; exact E]. destruct (sq_one _ E) as [E1 | E1]; [left; exact E1 | right; left; exact E1].
Qed.
Lemma no_root u v x : u <> 0 -> v <> 0 -> v * (x * x) = u -> let c := fpow_pos (v * v * v * (v * v * v) * v * u) (xI e58) in c * c = 1.
Proof.
  intros U V H. cbv zeta. replace (v * v * v * (v * v * v) * v * u) with ((x * (v * v * v * v)) * (x * (v * v * v * v))) by (rewrite <- H; ring).
  assert (X : x <> 0) by (intros E; apply U; rewrite <- H, E; ring). set (q := x * (v * v * v * v)). assert (Q : q <> 0) by (subst q; repeat apply mul_nz; assumption). clearbody q.
  rewrite fpow_pos_mul. transitivity (fpow_pos q (xO (xO (xI e58)))); [cbn [fpow_pos]; ring |]. exact (eq_trans (f_equal (fpow_pos q) e58_full) (fermat_F q Q)).
Qed.
Lemma v_nz y : fd * (y * y) + 1 <> 0.
Proof.
  intros H. assert (Y : y <> 0) by (intros E; apply f1_nz; rewrite <- H, E; ring). apply (d_nonsquare (of_Z i_val / y)).
  transitivity (of_Z i_val * of_Z i_val / (y * y)); [field; exact Y |]. rewrite i_sq. transitivity ((fd * (y * y) - (fd * (y * y) + 1)) / (y * y)); [field; exact Y |]. rewrite H. field. exact Y.
Qed.
Lemma curve_uv x y : curve x y <-> (fd * (y * y) + 1) * (x * x) = y * y - 1.
Proof.
  unfold curve. split; intros H; apply fsub_0.
  - transitivity ((1 + fd * (x * x) * (y * y)) - (y * y - x * x)); [ring |]. rewrite H. ring.
  - transitivity ((y * y - 1) - (fd * (y * y) + 1) * (x * x)); [ring |]. rewrite H. ring.
Qed.
Lemma fopp_val x : x <> 0 -> fval (- x) = (p25519 - fval x)%Z.
Proof.
  intros X. pose proof (fval_range x) as R. assert (N : fval x <> 0%Z) by (intros E; apply X; apply F_eq; rewrite E; reflexivity).
  rewrite <- (of_Z_val x) at 1. rewrite <- of_Z_opp, fval_of_Z. symmetry. apply (Z.mod_unique_pos _ _ (-1)); [lia |]. ring.
Qed.
Lemma p_odd : (p25519 mod 2 = 1)%Z. Proof. rewrite p_def. vm_compute. reflexivity. Qed.
Lemma fopp_parity x : x <> 0 -> (fval (- x) mod 2 = 1 - fval x mod 2)%Z.
Proof.
  intros X. rewrite (fopp_val x X), Zminus_mod, p_odd. pose proof (Z.mod_pos_bound (fval x) 2 ltac:(lia)). assert (E : (fval x mod 2 = 0 \/ fval x mod 2 = 1)%Z) by lia. destruct E as [-> | ->]; reflexivity.
Qed.
(** A point is determined by y and the parity of x. *)
Lemma point_unique P Q : on_curve P -> on_curve Q -> py P = py Q -> (fval (px P) mod 2 = fval (px Q) mod 2)%Z \/ px P = 0 -> P = Q.
Proof.
  destruct P as [x y], Q as [x' y']. cbn [px py]. intros C1 C2 E H. subst y'. apply mk_on in C1, C2. apply curve_uv in C1, C2.
  assert (S : (x - x') * (x + x') = 0).
  { apply (f_cancel _ _ (fd * (y * y) + 1) (v_nz y)). transitivity ((fd * (y * y) + 1) * (x * x) - (fd * (y * y) + 1) * (x' * x')); [ring |]. rewrite C1, C2. ring. }
  apply fmul_0 in S. destruct S as [S | S]. { apply fsub_0 in S. subst x'. exact eq_refl. }
  assert (X : x' = - x) by (apply fsub_0; transitivity (x + x'); [ring | exact S]). subst x'. destruct (F_dec x 0) as [Z | Z].
  - subst x. apply point_eq; [ring | exact eq_refl].
  - exfalso. destruct H as [H | H]; [|contradiction]. rewrite (fopp_parity x Z) in H. pose proof (Z.mod_pos_bound (fval x) 2 ltac:(lia)). lia.
Qed.

(** ** FromBytes *)
Definition sign_bit (s : bytes) : Z := (le_value s / 2 ^ 255)%Z.
Definition y_of (s : bytes) : F := of_Z (le_value s mod 2 ^ 255).
Lemma sign_bit_byte s : bytes_ok s -> length s = 32%nat -> Z.shiftr (nth 31 s 0%Z) 7 = sign_bit s /\ (0 <= sign_bit s <= 1)%Z.
Proof.
  intros B L. unfold sign_bit. rewrite Z.shiftr_div_pow2 by lia. assert (S : s = firstn 31 s ++ [nth 31 s 0%Z]).
  { clear B. do 32 (destruct s as [|? s]; [discriminate |]). destruct s; [reflexivity | discriminate]. }
  pose proof (nth_byte s 31 B) as NB. set (t := nth 31 s 0%Z) in *. clearbody t. rewrite S, le_value_app, firstn_length, L. cbn [le_value]. change (Z.of_nat (Nat.min 31 32)) with 31%Z.
  assert (R : (0 <= le_value (firstn 31 s) < 256 ^ 31)%Z). { pose proof (le_value_range (firstn 31 s) (Forall_firstn' _ _ _ B)) as R. rewrite firstn_length, L in R. exact R. }
  set (r := le_value (firstn 31 s)) in *. clearbody r. clear - R NB. change (256 ^ 31)%Z with (2 ^ 248)%Z in *.
  assert (E : ((r + 2 ^ 248 * (t + 256 * 0)) / 2 ^ 255 = t / 2 ^ 7)%Z).
  { replace (2 ^ 255)%Z with (2 ^ 248 * 2 ^ 7)%Z by reflexivity. rewrite <- Z.div_div by lia. replace (r + 2 ^ 248 * (t + 256 * 0))%Z with (t * 2 ^ 248 + r)%Z by ring. rewrite Z.div_add_l, (Z.div_small r), Z.add_0_r by lia. reflexivity. }
  rewrite E. split; [reflexivity |]. split; [apply Z.div_pos; lia |]. apply Z.lt_succ_r. apply Z.div_lt_upper_bound; lia.
Qed.
(** The last part of FromBytes: the sign of x. *)
Definition finish_x (s : bytes) (X : FieldElement) : FieldElement :=
  let (neg, X) := FeIsNegative X in if negb (neg =? Z.shiftr (nth 31 s 0) 7)%Z then FeNeg X else X.
Lemma finish_spec s n X x : bytes_ok s -> length s = 32%nat -> (n <= 600)%Z -> fv n X x -> exists x', (x' = x \/ x' = - x) /\ ((fval x' mod 2 = sign_bit s)%Z \/ x' = 0) /\ fv 200 (finish_x s X) x'.
Proof.
  intros B L N V. destruct (sign_bit_byte s B L) as [E R]. unfold finish_x. destruct V as [V1 V2]. rewrite (FeIsNegative_spec n X N V1), E, V2.
  destruct (fv_tobytes n X x N (conj V1 V2)) as [_ VT]. set (X' := snd (FeToBytes X)) in *. clearbody X'. destruct (Z.eqb_spec (fval x mod 2) (sign_bit s)) as [Q | Q]; cbn [negb].
  - exists x. split; [left; exact eq_refl |]. split; [left; exact Q | exact VT].
  - exists (- x). split; [right; exact eq_refl |]. split.
    + destruct (F_dec x 0) as [Z | Z]; [right; rewrite Z; ring |]. left. rewrite (fopp_parity x Z). pose proof (Z.mod_pos_bound (fval x) 2 ltac:(lia)). lia.
    + assert (H : (0 <= 200 <= 3200)%Z) by lia. exact (fv_neg 200 X' x H VT).
Qed.
Lemma nonzero_spec n h x : (n <= 600)%Z -> fv n h x -> (fst (FeIsNonZero h) =? 1)%Z = if F_dec x 0 then false else true.
Proof. intros N [V1 V2]. rewrite (FeIsNonZero_spec n h N V1), V2. cbn [fst]. destruct (F_dec x 0); reflexivity. Qed.
Lemma decode_done s X x y Y : bytes_ok s -> length s = 32%nat -> fv 200 X x -> fv 101 Y y -> (fd * (y * y) + 1) * (x * x) = y * y - 1 ->
  exists P, on_curve P /\ py P = y /\ ((fval (px P) mod 2 = sign_bit s)%Z \/ px P = 0) /\ repr_ext (mkExt (finish_x s X) Y FeOne (FeMul (finish_x s X) Y)) P.
Proof.
  intros B L VX VY C. destruct (finish_spec s 200 X x B L ltac:(lia) VX) as (x' & E & S & V). exists (mkP x' y). cbn [px py].
  assert (C' : on_curve (mkP x' y)). { apply on_mk. apply curve_uv. rewrite <- C. destruct E as [-> | ->]; ring. }
  split; [exact C' |]. split; [exact eq_refl |]. split; [exact S |]. split; [exact C' |]. exists 1. cbn [eX eY eZ eT px py]. split; [exact f1_nz |]. set (Xf := finish_x s X) in *. clearbody Xf.
  split; [apply (fv_eq _ _ _ _ V); ring |]. split; [apply (fv_eq _ _ _ _ VY); ring |]. split; [exact fv_one |]. fvw. ring.
Qed.
Theorem FromBytes_spec s : bytes_ok s -> length s = 32%nat ->
  match Ext_FromBytes s with
  | Some e => exists P, on_curve P /\ py P = y_of s /\ ((fval (px P) mod 2 = sign_bit s)%Z \/ px P = 0) /\ repr_ext e P
  | None => forall P, on_curve P -> py P <> y_of s
  end.
Proof.
  intros B L. assert (VY : fv 101 (FeFromBytes s) (y_of s)) by exact (FeFromBytes_spec s B L). unfold Ext_FromBytes. set (Y := FeFromBytes s) in *. set (y := y_of s) in *. clearbody Y. cbv zeta.
  pose proof fv_one as V1. pose proof fv_d as VD. destruct fv_sqrtm1 as (i & VI & II).
  assert (VU : fv 202 (FeSub (FeSquare Y) FeOne) (y * y - 1)) by (fvw; ring). set (U := FeSub (FeSquare Y) FeOne) in *.
  assert (VV : fv 202 (FeAdd (FeMul (FeSquare Y) const_d) FeOne) (fd * (y * y) + 1)) by (fvw; ring). set (V := FeAdd (FeMul (FeSquare Y) const_d) FeOne) in *. clearbody U V.
  assert (NV : fd * (y * y) + 1 <> 0) by exact (v_nz y). set (u := y * y - 1) in *. set (v := fd * (y * y) + 1) in *.
  assert (V3 : fv 101 (FeMul (FeSquare V) V) (v * v * v)) by (fvw; ring). set (W3 := FeMul (FeSquare V) V) in *. clearbody W3.
  assert (VW : fv 101 (FeMul (FeMul (FeSquare W3) V) U) (v * v * v * (v * v * v) * v * u)) by (fvw; ring). set (W := FeMul (FeMul (FeSquare W3) V) U) in *. clearbody W.
  assert (L330 : (101 <= 330)%Z) by lia. pose proof (fv_pow 101 W _ L330 VW) as VP. fold e58 in VP. set (WP := fePow22523 W) in *. clearbody WP.
  assert (VX : fv 101 (FeMul (FeMul WP W3) U) (root_candidate u v)) by (fvw; exact eq_refl). set (X := FeMul (FeMul WP W3) U) in *. clearbody X.
  pose proof (root_value u v) as RV. set (x := root_candidate u v) in *. set (c := fpow_pos (v * v * v * (v * v * v) * v * u) (xI e58)) in *.
  assert (VXX : fv 101 (FeMul (FeSquare X) V) (v * (x * x))) by (fvw; ring). set (VX2 := FeMul (FeSquare X) V) in *. clearbody VX2.
  assert (CK1 : fv 303 (FeSub VX2 U) (v * (x * x) - u)) by (fvw; exact eq_refl). assert (CK2 : fv 303 (FeAdd VX2 U) (v * (x * x) + u)) by (fvw; exact eq_refl).
  assert (L6 : (303 <= 600)%Z) by lia. rewrite (nonzero_spec 303 _ _ L6 CK1), (nonzero_spec 303 _ _ L6 CK2).
  assert (FIN : forall X0, (let (neg, X1) := FeIsNegative X0 in Some (mkExt (if negb (neg =? Z.shiftr (nth 31 s 0%Z) 7)%Z then FeNeg X1 else X1) Y FeOne (FeMul (if negb (neg =? Z.shiftr (nth 31 s 0%Z) 7)%Z then FeNeg X1 else X1) Y)))
    = Some (mkExt (finish_x s X0) Y FeOne (FeMul (finish_x s X0) Y))).
  { intros X0. unfold finish_x. destruct (FeIsNegative X0). reflexivity. }
  destruct (F_dec (v * (x * x) - u) 0) as [E1 | E1].
  - rewrite FIN. apply fsub_0 in E1. assert (L2 : (101 <= 200)%Z) by lia. exact (decode_done s X x y Y B L (fv_weaken _ _ _ _ L2 VX) VY E1).
  - destruct (F_dec (v * (x * x) + u) 0) as [E2 | E2].
    + rewrite FIN. assert (VXI : fv 101 (FeMul X SqrtM1) (x * i)) by (fvw; exact eq_refl). assert (L3 : (101 <= 600)%Z) by lia. destruct (fv_tobytes 101 _ _ L3 VXI) as [_ VT].
      apply (decode_done s _ (x * i) y Y B L VT VY). transitivity (v * (x * x) * (i * i)); [unfold v; ring |]. rewrite II. transitivity (u - (v * (x * x) + u)); [ring |]. rewrite E2. unfold u. ring.
    + intros P CP EP. destruct P as [x1 y1]. cbn [py] in EP. subst y1. apply mk_on in CP. apply curve_uv in CP. fold u v in CP.
      destruct (F_dec u 0) as [U0 | U0].
      * apply E1. rewrite RV, U0. ring.
      * destruct (root_cases u v U0 NV) as [R | [R | R]]; fold c in R.
        -- apply E1. rewrite RV, R. ring.
        -- apply E2. rewrite RV, R. ring.
        -- pose proof (no_root u v x1 U0 NV CP) as R2. cbv zeta in R2. fold c in R2. rewrite R in R2. exact (minus_one_nz R2).
Qed.
Theorem FromBytes_encode P : on_curve P -> exists e, Ext_FromBytes (encode_point P) = Some e /\ repr_ext e P.
Proof.
  intros C. assert (LE : length (encode_point P) = 32%nat) by apply le32_length. assert (BE : bytes_ok (encode_point P)) by apply le32_bytes. pose proof (FromBytes_spec (encode_point P) BE LE) as H.
  pose proof (fval_range (py P)) as RY. pose proof (Z.mod_pos_bound (fval (px P)) 2 ltac:(lia)) as RX. rewrite p_def in RY.
  assert (V : le_value (encode_point P) = (fval (py P) + 2 ^ 255 * (fval (px P) mod 2))%Z) by (unfold encode_point; apply le_value_le32; lia).
  assert (VY : y_of (encode_point P) = py P). { unfold y_of. rewrite V. rewrite Z.add_comm, Z.mul_comm, Z.add_comm, Z.mod_add, Z.mod_small by lia. apply of_Z_val. }
  assert (VS : sign_bit (encode_point P) = (fval (px P) mod 2)%Z). { unfold sign_bit. rewrite V. rewrite Z.mul_comm, Z.div_add, Z.div_small by lia. reflexivity. }
  rewrite VY, VS in H. destruct (Ext_FromBytes (encode_point P)) as [e |]; [|exfalso; exact (H P C eq_refl)]. exists e. split; [reflexivity |].
  destruct H as (Q & CQ & EQ & S & R). rewrite <- (point_unique Q P CQ C EQ S). exact R.
Qed.
