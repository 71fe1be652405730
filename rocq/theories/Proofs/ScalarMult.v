(** Constant-time selection, the signed radix 16 recoding, and fixed-base scalar multiplication. *)
From Coq Require Import Ring Field.
From Verif.Model Require Import Base Limb EdwardsTable EdwardsCode Edwards.
From Verif.Spec Require Import EdSpec.
From Verif.Proofs Require Import Util LimbFacts RadixFacts FieldFacts CurveFacts GroupFacts FieldEl FieldBytes PointFacts TableFacts.
Open Scope Z_scope.

(** ** Selection *)
Theorem FeCMove_0 f g : length f = length g -> FeCMove f g 0 = f.
Proof.
  unfold FeCMove. change (i32 (- 0)) with 0. revert g. induction f as [|x f IH]; intros [|y g] L; try discriminate; [reflexivity |]. cbn [map2]. rewrite Z.land_0_l, Z.lxor_0_r. f_equal. apply IH. cbn in L. lia.
Qed.
Theorem FeCMove_1 f g : length f = length g -> FeCMove f g 1 = g.
Proof.
  unfold FeCMove. change (i32 (- (1))) with (-1). revert g. induction f as [|x f IH]; intros [|y g] L; try discriminate; [reflexivity |]. cbn [map2].
  replace (Z.lxor x (Z.land (-1) (Z.lxor x y))) with y by (rewrite Z.land_m1_l, <- Z.lxor_assoc, Z.lxor_nilpotent; reflexivity). f_equal. apply IH. cbn in L. lia.
Qed.
Definition wfp (q : PreComputedGroupElement) : Prop := length (yPlusX q) = 10%nat /\ length (yMinusX q) = 10%nat /\ length (xy2d q) = 10%nat.
Lemma Pre_CMove_0 t u : wfp t -> wfp u -> Pre_CMove t u 0 = t.
Proof. intros (A & B & C) (A' & B' & C'). unfold Pre_CMove. rewrite !FeCMove_0 by congruence. destruct t; reflexivity. Qed.
Lemma Pre_CMove_1 t u : wfp t -> wfp u -> Pre_CMove t u 1 = u.
Proof. intros (A & B & C) (A' & B' & C'). unfold Pre_CMove. rewrite !FeCMove_1 by congruence. destruct u; reflexivity. Qed.
Theorem equal_spec b c : 0 <= b < 2 ^ 31 -> 0 <= c < 2 ^ 31 -> equal b c = if b =? c then 1 else 0.
Proof.
  intros B C. unfold equal. assert (X : 0 <= Z.lxor b c < 2 ^ 31).
  { split; [apply Z.lxor_nonneg; lia |]. destruct (Z.eq_dec (Z.lxor b c) 0) as [E | E]; [lia |]. apply Z.log2_lt_cancel. rewrite Z.log2_pow2 by lia.
    assert (P : 0 < Z.lxor b c) by (assert (0 <= Z.lxor b c) by (apply Z.lxor_nonneg; lia); lia). eapply Z.le_lt_trans; [apply Z.log2_lxor; lia |].
    assert (L : forall y, 0 <= y < 2 ^ 31 -> Z.log2 y < 31). { intros y Y. destruct (Z.eq_dec y 0) as [-> | N]; [cbn; lia |]. apply Z.log2_lt_pow2; lia. } pose proof (L b B). pose proof (L c C). lia. }
  destruct (Z.eqb_spec b c) as [-> | N].
  - rewrite Z.lxor_nilpotent. reflexivity.
  - assert (Z.lxor b c <> 0) by (intros E; apply Z.lxor_eq in E; contradiction). set (x := Z.lxor b c) in *. clearbody x. unfold u32. rewrite (Z.mod_small x), (Z.mod_small (x - 1)) by (pows; lia). rewrite Z.shiftr_div_pow2, Z.div_small by lia. reflexivity.
Qed.
Theorem negative_spec b : - 2 ^ 31 <= b < 2 ^ 31 -> negative b = if b <? 0 then 1 else 0.
Proof.
  intros B. unfold negative. rewrite Z.shiftr_div_pow2 by lia. destruct (Z.ltb_spec b 0).
  - replace (b / 2 ^ 31) with (-1); [reflexivity |]. apply (Z.div_unique_pos b (2 ^ 31) (-1) (b + 2 ^ 31)); lia.
  - rewrite Z.div_small by lia. reflexivity.
Qed.
Definition neg_pre (q : PreComputedGroupElement) : PreComputedGroupElement := mkPre (yMinusX q) (yPlusX q) (FeNeg (xy2d q)).
Lemma wfp_zero : wfp Pre_Zero. Proof. split; [reflexivity | split; reflexivity]. Qed.
#[local] Transparent FeNeg.
Lemma wfp_neg q : wfp q -> wfp (neg_pre q).
Proof. intros (A & B & C). unfold neg_pre, FeNeg. split; [exact B | split; [exact A |]]. cbn [xy2d]. rewrite map_length. exact C. Qed.
#[local] Opaque FeNeg.
Theorem selectRow_spec row b : length row = 8%nat -> Forall wfp row -> -8 <= b <= 8 ->
  selectRow row b = if b =? 0 then Pre_Zero else if 0 <? b then nth (Z.to_nat b - 1) row pre0 else neg_pre (nth (Z.to_nat (- b) - 1) row pre0).
Proof.
  intros L W B. do 8 (destruct row as [|? row]; [discriminate |]). destruct row; [|discriminate]. clear L. repeat (let H := fresh "W" in let W' := fresh in inversion_clear W as [|? ? H W']; rename W' into W). clear W. pose proof wfp_zero as WZ.
  unfold selectRow. cbn [seq fold_left nth]. cbv zeta.
  assert (C : forall c, -8 <= c <= 8 -> i32 (c - i32 (Z.shiftl (Z.land (i32 (- negative c)) c) 1)) = Z.abs c).
  { intros c Hc. assert (Q : forallb (fun k => let c := Z.of_nat k - 8 in i32 (c - i32 (Z.shiftl (Z.land (i32 (- negative c)) c) 1)) =? Z.abs c) (seq 0 17) = true) by reflexivity.
    rewrite forallb_forall in Q. specialize (Q (Z.to_nat (c + 8)) ltac:(apply in_seq; lia)). cbv zeta in Q. apply Z.eqb_eq in Q. replace (Z.of_nat (Z.to_nat (c + 8)) - 8) with c in Q by lia. exact Q. }
  rewrite (C b B). rewrite negative_spec by lia. repeat match goal with |- context [i32 (Z.of_nat ?k + 1)] => let v := eval vm_compute in (i32 (Z.of_nat k + 1)) in change (i32 (Z.of_nat k + 1)) with v end.
  rewrite !equal_spec by (pows; lia).
  assert (Cases : b = -8 \/ b = -7 \/ b = -6 \/ b = -5 \/ b = -4 \/ b = -3 \/ b = -2 \/ b = -1 \/ b = 0 \/ b = 1 \/ b = 2 \/ b = 3 \/ b = 4 \/ b = 5 \/ b = 6 \/ b = 7 \/ b = 8) by lia.
  repeat (destruct Cases as [-> | Cases]); [.. | subst b]; cbn [Z.abs Z.eqb Z.ltb Z.compare Pos.eqb Pos.compare Pos.compare_cont];
  repeat match goal with
  | |- context [Pre_CMove ?t ?u 0] => rewrite (Pre_CMove_0 t u) by assumption
  | |- context [Pre_CMove ?t ?u 1] => rewrite (Pre_CMove_1 t u) by assumption
  end;
  match goal with
  | |- ?x = ?x => reflexivity
  | |- Pre_CMove ?t (mkPre _ _ _) 1 = _ => exact (Pre_CMove_1 t (neg_pre t) ltac:(assumption) (wfp_neg t ltac:(assumption)))
  | |- Pre_CMove ?t (mkPre _ _ _) 0 = _ => exact (Pre_CMove_0 t (neg_pre t) ltac:(assumption) (wfp_neg t ltac:(assumption)))
  end.
Qed.

(** Digits beyond 8 select the neutral element. *)
Lemma selectRow_beyond row b : length row = 8%nat -> Forall wfp row -> 9 <= b <= 16 -> selectRow row b = Pre_Zero.
Proof.
  intros L W B. do 8 (destruct row as [|? row]; [discriminate |]). destruct row; [|discriminate]. clear L. repeat (let H := fresh "W" in let W' := fresh in inversion_clear W as [|? ? H W']; rename W' into W). clear W. pose proof wfp_zero as WZ.
  unfold selectRow. cbn [seq fold_left nth]. cbv zeta.
  assert (C : i32 (b - i32 (Z.shiftl (Z.land (i32 (- negative b)) b) 1)) = b).
  { assert (Q : forallb (fun k => let c := Z.of_nat k in i32 (c - i32 (Z.shiftl (Z.land (i32 (- negative c)) c) 1)) =? c) (seq 0 17) = true) by reflexivity.
    rewrite forallb_forall in Q. specialize (Q (Z.to_nat b) ltac:(apply in_seq; lia)). cbv zeta in Q. apply Z.eqb_eq in Q. replace (Z.of_nat (Z.to_nat b)) with b in Q by lia. exact Q. }
  rewrite C. rewrite negative_spec by lia. repeat match goal with |- context [i32 (Z.of_nat ?k + 1)] => let v := eval vm_compute in (i32 (Z.of_nat k + 1)) in change (i32 (Z.of_nat k + 1)) with v end.
  rewrite !equal_spec by (pows; lia). replace (b <? 0) with false by (symmetry; apply Z.ltb_ge; lia).
  repeat match goal with |- context [b =? ?k] => replace (b =? k) with false by (symmetry; apply Z.eqb_neq; lia) end.
  repeat match goal with |- context [Pre_CMove ?t ?u 0] => rewrite (Pre_CMove_0 t u) by assumption end.
  exact (Pre_CMove_0 Pre_Zero (neg_pre Pre_Zero) WZ (wfp_neg _ WZ)).
Qed.

(** ** Represented points *)
Lemma repr_pre_wfp q P : repr_pre q P -> wfp q.
Proof. intros (_ & A & B & C). split; [|split]; eapply fb_length; [exact (proj1 A) | exact (proj1 B) | exact (proj1 C)]. Qed.
Lemma repr_pre_zero : repr_pre Pre_Zero pzero.
Proof.
  unfold repr_pre. change (px pzero) with f0. change (py pzero) with f1. cbn [yPlusX yMinusX xy2d Pre_Zero]. split; [exact pzero_on |].
  split; [apply (fv_eq _ _ _ _ fv_one); ring |]. split; [apply (fv_eq _ _ _ _ fv_one); ring | apply (fv_eq _ _ _ _ fv_zero); ring].
Qed.
Lemma repr_pre_neg q P : repr_pre q P -> repr_pre (neg_pre q) (pneg P).
Proof.
  destruct P as [x y]. rewrite pneg_mk. unfold repr_pre. cbn [px py neg_pre yPlusX yMinusX xy2d]. intros (C & A & B & T).
  split; [rewrite <- pneg_mk; exact (pneg_on _ C) |]. split; [apply (fv_eq _ _ _ _ B); ring |]. split; [apply (fv_eq _ _ _ _ A); ring |].
  assert (N : (0 <= 101 <= 3200)) by lia. apply (fv_eq _ _ _ _ (fv_neg _ _ _ N T)); ring.
Qed.
Theorem selectPoint_spec i b : (i < 32)%nat -> -8 <= b <= 8 -> repr_pre (selectPoint i b) (zmul (b * 256 ^ Z.of_nat i) base_point).
Proof.
  intros I B. unfold selectPoint. pose proof (base_row_length i I) as L.
  assert (W : Forall wfp (nth i base_table [])). { apply Forall_forall. intros q Q. apply (In_nth _ _ pre0) in Q. destruct Q as (j & J & <-). rewrite L in J. exact (repr_pre_wfp _ _ (base_table_spec i j I J)). }
  rewrite (selectRow_spec _ _ L W B). destruct (Z.eqb_spec b 0) as [-> | N].
  - rewrite Z.mul_0_l, zmul_0. exact repr_pre_zero.
  - destruct (Z.ltb_spec 0 b) as [P | P].
    + assert (J : (Z.to_nat b - 1 < 8)%nat) by lia. pose proof (base_table_spec i _ I J) as R. replace (Z.of_nat (Z.to_nat b - 1) + 1) with b in R by lia. exact R.
    + assert (J : (Z.to_nat (- b) - 1 < 8)%nat) by lia. pose proof (base_table_spec i _ I J) as R. replace (Z.of_nat (Z.to_nat (- b) - 1) + 1) with (- b) in R by lia.
      apply repr_pre_neg in R. rewrite <- zmul_opp in R. replace (- (- b * 256 ^ Z.of_nat i)) with (b * 256 ^ Z.of_nat i) in R by ring. exact R.
Qed.

Definition clip (b : Z) : Z := if 8 <? b then 0 else b.
Lemma selectPoint_clip i b : (i < 32)%nat -> -8 <= b <= 16 -> repr_pre (selectPoint i b) (zmul (clip b * 256 ^ Z.of_nat i) base_point).
Proof.
  intros I B. unfold clip. destruct (Z.ltb_spec 8 b) as [G | G]; [|apply selectPoint_spec; [exact I | lia]].
  unfold selectPoint. pose proof (base_row_length i I) as L.
  assert (W : Forall wfp (nth i base_table [])). { apply Forall_forall. intros q Q. apply (In_nth _ _ pre0) in Q. destruct Q as (j & J & <-). rewrite L in J. exact (repr_pre_wfp _ _ (base_table_spec i j I J)). }
  rewrite (selectRow_beyond _ _ L W) by lia. rewrite Z.mul_0_l, zmul_0. exact repr_pre_zero.
Qed.

(** ** Recoding *)
Fixpoint val16 (e : list Z) : Z := match e with [] => 0 | x :: r => x + 16 * val16 r end.
Lemma i8_small x : -128 <= x < 128 -> i8 x = x.
Proof. intros H. unfold i8. rewrite Z.mod_small by lia. lia. Qed.
Lemma nibbles_spec a : bytes_ok a -> val16 (nibbles a) = le_value a /\ Forall (fun x => 0 <= x < 16) (nibbles a) /\ length (nibbles a) = (2 * length a)%nat.
Proof.
  induction 1 as [|v a V _ (IH & IF & IL)]; [repeat constructor |]. unfold nibbles in *. cbn [flat_map app].
  assert (E1 : Z.land v 15 = v mod 16) by (change 15 with (Z.ones 4); rewrite Z.land_ones by lia; reflexivity).
  assert (E2 : Z.land (Z.shiftr v 4) 15 = v / 16). { change 15 with (Z.ones 4). rewrite Z.land_ones, Z.shiftr_div_pow2 by lia. change (2 ^ 4) with 16. apply Z.mod_small. unfold is_byte in V. split; [apply Z.div_pos; lia |]. apply Z.div_lt_upper_bound; lia. }
  unfold is_byte in V. assert (M : 0 <= v mod 16 < 16) by (apply Z.mod_pos_bound; lia). assert (D : 0 <= v / 16 < 16) by (split; [apply Z.div_pos; lia | apply Z.div_lt_upper_bound; lia]).
  rewrite E1, E2, !i8_small by lia. cbn [val16 le_value length]. split; [rewrite IH; pose proof (Z.div_mod v 16 ltac:(lia)); lia |]. split; [constructor; [exact M |]; constructor; [exact D | exact IF] | lia].
Qed.
Lemma val16_app e f : val16 (e ++ f) = val16 e + 16 ^ Z.of_nat (length e) * val16 f.
Proof.
  induction e as [|x e IH]; cbn [app val16 length]; [change (16 ^ Z.of_nat 0) with 1; lia |]. rewrite IH, Nat2Z.inj_succ, Z.pow_succ_r by lia. ring.
Qed.
(** All digits but the last are in -8..7; the last one is in 0..16. *)
Lemma signed_digits_spec e : Forall (fun x => 0 <= x < 16) e -> e <> [] -> forall c, 0 <= c <= 1 ->
  exists lo t, signed_digits e c = lo ++ [t] /\ S (length lo) = length e /\ Forall (fun x => -8 <= x <= 7) lo /\ 0 <= t <= 16 /\ val16 (lo ++ [t]) = val16 e + c.
Proof.
  induction 1 as [|x e X H IH]; [congruence |]. intros _ c C. destruct e as [|y e].
  - exists [], (x + c). cbn [signed_digits app val16 length] in *. rewrite i8_small by lia. split; [reflexivity |]. split; [reflexivity |]. split; [constructor |]. lia.
  - assert (N : y :: e <> []) by discriminate. specialize (IH N). set (r := y :: e) in *.
    assert (E : signed_digits (x :: r) c = i8 (i8 (x + c) - i8 (Z.shiftl (Z.shiftr (i8 (i8 (x + c) + 8)) 4) 4)) :: signed_digits r (Z.shiftr (i8 (i8 (x + c) + 8)) 4)) by reflexivity. rewrite E. clear E.
    rewrite (i8_small (x + c)), (i8_small (x + c + 8)) by lia. rewrite Z.shiftr_div_pow2, Z.shiftl_mul_pow2 by lia. change (2 ^ 4) with 16.
    set (k := (x + c + 8) / 16). assert (K : 0 <= k <= 1) by (subst k; split; [apply Z.div_pos; lia |]; apply Z.lt_succ_r; apply Z.div_lt_upper_bound; lia).
    assert (D : 16 * k <= x + c + 8 < 16 * k + 16) by (subst k; pose proof (Z.div_mod (x + c + 8) 16 ltac:(lia)); pose proof (Z.mod_pos_bound (x + c + 8) 16 ltac:(lia)); lia). clearbody k.
    rewrite (i8_small (k * 16)), (i8_small (x + c - k * 16)) by lia. destruct (IH k K) as (lo & t & I1 & I2 & I3 & I4 & I5). exists (x + c - k * 16 :: lo), t. rewrite I1. split; [reflexivity |].
    cbn [length app val16]. split; [rewrite I2; reflexivity |]. split; [constructor; [lia | exact I3] |]. split; [exact I4 |]. rewrite I5. lia.
Qed.
Lemma val16_bounds lo : Forall (fun x => -8 <= x <= 7) lo -> -8 * (16 ^ Z.of_nat (length lo) - 1) <= 15 * val16 lo <= 7 * (16 ^ Z.of_nat (length lo) - 1).
Proof.
  induction 1 as [|x lo X _ IH]; [cbn; lia |]. cbn [val16 length]. rewrite Nat2Z.inj_succ, Z.pow_succ_r by lia. lia.
Qed.
Lemma map_clip_lo lo : Forall (fun x => -8 <= x <= 7) lo -> map clip lo = lo.
Proof. induction 1 as [|x lo X _ IH]; [reflexivity |]. cbn [map]. rewrite IH. unfold clip. destruct (Z.ltb_spec 8 x); [lia | reflexivity]. Qed.
Lemma get_clip e i : get (map clip e) i = clip (get e i).
Proof. unfold get. change 0 with (clip 0) at 1. apply map_nth. Qed.
(** The top digit of a 256-bit scalar. *)
Definition top16 : Z := 16 ^ 63.
Definition top_digit (a : Z) : Z := (a + 8 * ((top16 - 1) / 15)) / top16.
(** The multiple that is computed: a digit above 8 is lost. *)
Definition effective (a : Z) : Z := if 8 <? top_digit a then a - top_digit a * top16 else a.
(** The largest scalar whose digits are all in -8..8: 0x8777..7 *)
Definition digit_limit : Z := 8 * top16 + 7 * ((top16 - 1) / 15).
Lemma top16_15 : 15 * ((top16 - 1) / 15) = top16 - 1. Proof. vm_compute. reflexivity. Qed.
Lemma recode_spec a : bytes_ok a -> length a = 32%nat -> exists e, signed_digits (nibbles a) 0 = e /\ length e = 64%nat /\ Forall (fun x => -8 <= x <= 16) e /\ val16 (map clip e) = effective (le_value a).
Proof.
  intros A L. destruct (nibbles_spec a A) as (NV & NF & NL). assert (N0 : nibbles a <> []) by (intros E; rewrite E, L in NL; discriminate).
  destruct (signed_digits_spec _ NF N0 0 ltac:(lia)) as (lo & t & E1 & E2 & E3 & E4 & E5). exists (lo ++ [t]). split; [exact E1 |]. rewrite NL, L in E2. assert (E6 : length lo = 63%nat) by lia. split; [rewrite app_length, E6; reflexivity |].
  split; [apply Forall_app; split; [eapply Forall_impl; [|exact E3]; intros x X; cbn beta in X; lia | constructor; [lia | constructor]] |].
  rewrite NV, Z.add_0_r in E5. rewrite map_app, (map_clip_lo lo E3). pose proof (val16_bounds lo E3) as B. rewrite val16_app in E5. rewrite val16_app. rewrite E6 in *. change (16 ^ Z.of_nat 63) with top16 in *. cbn [map val16] in *. rewrite Z.mul_0_r, Z.add_0_r in *.
  pose proof top16_15 as T15. assert (TP : 1 < top16) by (vm_compute; reflexivity). set (T := top16) in *. set (Q := (T - 1) / 15) in *. set (v := le_value a) in *.
  assert (TD : top_digit v = t). { unfold top_digit. fold T. fold Q. clearbody Q T v. symmetry. apply (Z.div_unique_pos _ T t (val16 lo + 8 * Q)); lia. }
  unfold effective. rewrite TD. fold T. unfold clip. clearbody Q T v. destruct (Z.ltb_spec 8 t); lia.
Qed.
Lemma top_digit_limit a : 0 <= a -> (top_digit a <= 8 <-> a <= digit_limit).
Proof.
  intros A. unfold top_digit, digit_limit. pose proof top16_15 as T15. assert (TP : 1 < top16) by (vm_compute; reflexivity). set (Q := (top16 - 1) / 15) in *. set (T := top16) in *. clearbody Q T. split; intros H.
  - assert ((a + 8 * Q) / T < 9) by lia. pose proof (Z.div_mod (a + 8 * Q) T ltac:(lia)) as D. pose proof (Z.mod_pos_bound (a + 8 * Q) T ltac:(lia)) as M. nia.
  - apply Z.lt_succ_r. apply Z.div_lt_upper_bound; lia.
Qed.
Lemma effective_small a : 0 <= a <= digit_limit -> effective a = a.
Proof. intros H. unfold effective. destruct (Z.ltb_spec 8 (top_digit a)) as [G | G]; [|reflexivity]. pose proof (proj2 (top_digit_limit a (proj1 H)) (proj2 H)). lia. Qed.
Lemma limit_255 : 2 ^ 255 + 2 ^ 250 <= digit_limit. Proof. vm_compute. discriminate. Qed.

(** ** The loops *)
Fixpoint sum_at (f : nat -> Z) (l : list nat) : Z := match l with [] => 0 | i :: r => f i + sum_at f r end.
Lemma sum_at_map f g l : sum_at f (map g l) = sum_at (fun i => f (g i)) l.
Proof. induction l as [|x l IH]; [reflexivity |]. cbn [map sum_at]. rewrite IH. reflexivity. Qed.
Lemma sum_at_ext f g l : (forall i, f i = g i) -> sum_at f l = sum_at g l.
Proof. intros H. induction l as [|x l IH]; [reflexivity |]. cbn [sum_at]. rewrite IH, H. reflexivity. Qed.
Lemma sum_at_scale c f l : sum_at (fun i => c * f i) l = c * sum_at f l.
Proof. induction l as [|x l IH]; cbn [sum_at]; [lia |]. rewrite IH. ring. Qed.
Lemma val16_split n : forall e, length e = (2 * n)%nat ->
  val16 e = 16 * sum_at (fun k => get e (2 * k + 1) * 256 ^ Z.of_nat k) (seq 0 n) + sum_at (fun k => get e (2 * k) * 256 ^ Z.of_nat k) (seq 0 n).
Proof.
  induction n as [|n IH]; intros e L. { destruct e; [reflexivity | discriminate]. }
  destruct e as [|x [|y e]]; cbn [length] in L; try lia. assert (L' : length e = (2 * n)%nat) by lia. cbn [val16 seq sum_at]. rewrite (IH e L'). rewrite <- !seq_shift, !sum_at_map.
  replace (get (x :: y :: e) (2 * 0 + 1)) with y by reflexivity. replace (get (x :: y :: e) (2 * 0)) with x by reflexivity. change (256 ^ Z.of_nat 0) with 1.
  rewrite (sum_at_ext (fun i => get (x :: y :: e) (2 * S i + 1) * 256 ^ Z.of_nat (S i)) (fun i => 256 * (get e (2 * i + 1) * 256 ^ Z.of_nat i))).
  2: { intros i. replace (2 * S i + 1)%nat with (S (S (2 * i + 1))) by lia. unfold get. cbn [nth]. rewrite Nat2Z.inj_succ, Z.pow_succ_r by lia. ring. }
  rewrite (sum_at_ext (fun i => get (x :: y :: e) (2 * S i) * 256 ^ Z.of_nat (S i)) (fun i => 256 * (get e (2 * i) * 256 ^ Z.of_nat i))).
  2: { intros i. replace (2 * S i)%nat with (S (S (2 * i))) by lia. unfold get. cbn [nth]. rewrite Nat2Z.inj_succ, Z.pow_succ_r by lia. ring. }
  rewrite !sum_at_scale. ring.
Qed.
Lemma base_loop e l : Forall (fun x => -8 <= x <= 16) e -> Forall (fun i => (i < 64)%nat) l -> forall h n, repr_ext h (zmul n base_point) ->
  repr_ext (fold_left (base_step e) l h) (zmul (n + sum_at (fun i => get (map clip e) i * 256 ^ Z.of_nat (i / 2)) l) base_point).
Proof.
  intros E. induction 1 as [|i l I _ IH]; intros h n R; cbn [fold_left sum_at].
  - rewrite Z.add_0_r. exact R.
  - rewrite Z.add_assoc. apply IH. unfold base_step. apply Comp_ToExtended_spec. rewrite zmul_add by exact base_on. apply geMixedAdd_spec; [exact R |]. rewrite get_clip.
    apply selectPoint_clip; [apply Nat.div_lt_upper_bound; lia |]. unfold get. destruct (Nat.lt_ge_cases i (length e)) as [Hi | Hi]; [|rewrite nth_overflow by lia; lia]. rewrite Forall_forall in E. apply E. apply nth_In. exact Hi.
Qed.
Lemma repr_dbl c n : repr_comp c (padd (zmul n base_point) (zmul n base_point)) -> repr_comp c (zmul (2 * n) base_point).
Proof. rewrite zmul_dbl by exact base_on. intros H. exact H. Qed.
(** For every 256-bit scalar *)
Theorem GeScalarMultBase_gen a : bytes_ok a -> length a = 32%nat -> repr_ext (GeScalarMultBase a) (zmul (effective (le_value a)) base_point).
Proof.
  intros A L. destruct (recode_spec a A L) as (e & EE & EL & EF & EV).
  unfold GeScalarMultBase. rewrite EE. clear EE. assert (EL' : length (map clip e) = 64%nat) by (rewrite map_length; exact EL).
  assert (FO : Forall (fun i => (i < 64)%nat) odd_indices) by (apply Forall_forall; intros i Hi; apply in_map_iff in Hi; destruct Hi as (k & <- & Hk); apply in_seq in Hk; lia).
  assert (FE : Forall (fun i => (i < 64)%nat) even_indices) by (apply Forall_forall; intros i Hi; apply in_map_iff in Hi; destruct Hi as (k & <- & Hk); apply in_seq in Hk; lia).
  assert (R0 : repr_ext Ext_Zero (zmul 0 base_point)) by (rewrite zmul_0; exact repr_ext_zero).
  pose proof (base_loop e odd_indices EF FO _ _ R0) as R1. rewrite Z.add_0_l in R1. set (so := sum_at _ odd_indices) in R1. set (h1 := fold_left (base_step e) odd_indices Ext_Zero) in *. clearbody h1. cbv zeta.
  pose proof (Comp_ToProjective_spec _ _ (repr_dbl _ _ (Ext_Double_spec _ _ R1))) as R2. set (s2 := Comp_ToProjective (Ext_Double h1)) in *. clearbody s2.
  pose proof (Comp_ToProjective_spec _ _ (repr_dbl _ _ (Proj_Double_spec _ _ R2))) as R3. set (s3 := Comp_ToProjective (Proj_Double s2)) in *. clearbody s3.
  pose proof (Comp_ToProjective_spec _ _ (repr_dbl _ _ (Proj_Double_spec _ _ R3))) as R4. set (s4 := Comp_ToProjective (Proj_Double s3)) in *. clearbody s4.
  pose proof (Comp_ToExtended_spec _ _ (repr_dbl _ _ (Proj_Double_spec _ _ R4))) as R5. set (h5 := Comp_ToExtended (Proj_Double s4)) in *. clearbody h5.
  pose proof (base_loop e even_indices EF FE _ _ R5) as R6. replace (2 * (2 * (2 * (2 * so))) + sum_at (fun i => get (map clip e) i * 256 ^ Z.of_nat (i / 2)) even_indices) with (effective (le_value a)) in R6; [exact R6 |].
  rewrite <- EV, (val16_split 32 _ EL'). subst so. set (ce := map clip e) in *. unfold odd_indices, even_indices. rewrite !sum_at_map.
  rewrite (sum_at_ext (fun i => get ce (2 * i + 1) * 256 ^ Z.of_nat ((2 * i + 1) / 2)) (fun k => get ce (2 * k + 1) * 256 ^ Z.of_nat k)).
  2: { intros i. replace ((2 * i + 1) / 2)%nat with i; [reflexivity |]. apply (Nat.div_unique _ 2 i 1); lia. }
  rewrite (sum_at_ext (fun i => get ce (2 * i) * 256 ^ Z.of_nat ((2 * i) / 2)) (fun k => get ce (2 * k) * 256 ^ Z.of_nat k)).
  2: { intros i. replace ((2 * i) / 2)%nat with i; [reflexivity |]. apply (Nat.div_unique _ 2 i 0); lia. }
  ring.
Qed.
Theorem GeScalarMultBase_limit a : bytes_ok a -> length a = 32%nat -> le_value a <= digit_limit -> repr_ext (GeScalarMultBase a) (zmul (le_value a) base_point).
Proof. intros A L T. rewrite <- (effective_small (le_value a)) at 1; [apply GeScalarMultBase_gen; assumption |]. split; [exact (proj1 (le_value_range a A)) | exact T]. Qed.
Lemma le_value_top a : bytes_ok a -> length a = 32%nat -> nth 31 a 0 <= 127 -> le_value a < 2 ^ 255.
Proof.
  intros A L T. rewrite <- (firstn_skipn 31 a), le_value_app. rewrite firstn_length, L. change (Nat.min 31 32) with 31%nat. pose proof (le_value_range (firstn 31 a) (Forall_firstn' _ _ _ A)) as B. rewrite firstn_length, L in B. change (Nat.min 31 32) with 31%nat in B.
  assert (E : skipn 31 a = [nth 31 a 0]). { clear -L. do 32 (destruct a as [|? a]; [discriminate |]). destruct a; [reflexivity | discriminate]. } rewrite E. cbn [le_value]. change (256 ^ Z.of_nat 31) with (2 ^ 248) in *. lia.
Qed.
Theorem GeScalarMultBase_spec a : bytes_ok a -> length a = 32%nat -> nth 31 a 0 <= 127 -> repr_ext (GeScalarMultBase a) (zmul (le_value a) base_point).
Proof. intros A L T. apply GeScalarMultBase_limit; [exact A | exact L |]. pose proof (le_value_top a A L T). pose proof limit_255. lia. Qed.
Corollary GeScalarMultBase_bytes a : bytes_ok a -> length a = 32%nat -> nth 31 a 0 <= 127 -> Ext_ToBytes (GeScalarMultBase a) = encode_point (zmul (le_value a) base_point).
Proof. intros A L T. apply Ext_ToBytes_spec. apply GeScalarMultBase_spec; assumption. Qed.
