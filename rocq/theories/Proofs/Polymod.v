(** The bech32 checksum register (bech32.go:16-59) is linear over GF(2). *)
From Verif.Model Require Import Base Bech32.
From Verif.Proofs Require Import Util ConvertBits.

#[global] Arguments polymod_step : simpl never.

(** ** xor on bounded values *)
Definition in30 (c : Z) : Prop := 0 <= c < 2 ^ 30.

Lemma lxor_range a b n : 0 <= n -> 0 <= a < 2 ^ n -> 0 <= b < 2 ^ n -> 0 <= Z.lxor a b < 2 ^ n.
Proof.
  intros Hn Ha Hb.
  assert (0 <= Z.lxor a b) by (apply Z.lxor_nonneg; lia).
  split; auto.
  assert (E : Z.lxor a b = Z.lxor a b mod 2 ^ n).
  { apply Z.bits_inj'. intros i Hi.
    destruct (Z.lt_ge_cases i n).
    - rewrite Z.mod_pow2_bits_low by lia. reflexivity.
    - rewrite Z.mod_pow2_bits_high by lia. rewrite Z.lxor_spec.
      rewrite <- (Z.mod_small a (2 ^ n)), <- (Z.mod_small b (2 ^ n)) by lia.
      rewrite !Z.mod_pow2_bits_high by lia. reflexivity. }
  rewrite E. apply Z.mod_pos_bound. apply Z.pow_pos_nonneg; lia.
Qed.

Lemma land_lxor a b m : Z.land (Z.lxor a b) m = Z.lxor (Z.land a m) (Z.land b m).
Proof.
  apply Z.bits_inj'. intros i Hi. rewrite ?Z.land_spec, ?Z.lxor_spec, ?Z.land_spec.
  destruct (Z.testbit a i), (Z.testbit b i), (Z.testbit m i); reflexivity.
Qed.

Lemma lxor_4 a b c d : Z.lxor (Z.lxor a b) (Z.lxor c d) = Z.lxor (Z.lxor a c) (Z.lxor b d).
Proof. rewrite !Z.lxor_assoc. f_equal. rewrite <- !Z.lxor_assoc. f_equal. apply Z.lxor_comm. Qed.

(** ** The feedback term *)
Definition feedback (top : Z) : Z :=
  fold_left
    (fun c (ig : Z * Z) => let (i, g) := ig in if Z.land (Z.shiftr top i) 1 =? 1 then Z.lxor c g else c)
    (combine [0; 1; 2; 3; 4] generator) 0.

Lemma fold_cond_lxor top l c :
  fold_left (fun c (ig : Z * Z) => let (i, g) := ig in if Z.land (Z.shiftr top i) 1 =? 1 then Z.lxor c g else c) l c
  = Z.lxor c (fold_left (fun c (ig : Z * Z) => let (i, g) := ig in if Z.land (Z.shiftr top i) 1 =? 1 then Z.lxor c g else c) l 0).
Proof.
  revert c. induction l as [| [i g] l IH]; intros c; cbn [fold_left].
  - rewrite Z.lxor_0_r. reflexivity.
  - destruct (Z.land (Z.shiftr top i) 1 =? 1); rewrite IH; [| reflexivity].
    rewrite (IH (Z.lxor 0 g)). rewrite Z.lxor_0_l, Z.lxor_assoc. reflexivity.
Qed.

Lemma feedback_range t : 0 <= t < 32 -> 0 <= feedback t < 2 ^ 30.
Proof.
  intros H.
  assert (S : forallb (fun t => (0 <=? feedback t) && (feedback t <? 2 ^ 30)) (zrange 32) = true)
    by (vm_compute; reflexivity).
  apply (sweep 32 _ S) in H. lia.
Qed.

Lemma feedback_lxor a b : 0 <= a < 32 -> 0 <= b < 32 -> feedback (Z.lxor a b) = Z.lxor (feedback a) (feedback b).
Proof.
  intros Ha Hb.
  assert (S : forallb (fun a => forallb (fun b => feedback (Z.lxor a b) =? Z.lxor (feedback a) (feedback b)) (zrange 32)) (zrange 32) = true)
    by (vm_compute; reflexivity).
  apply (sweep 32 _ S) in Ha. apply (sweep 32 _ Ha) in Hb. apply Z.eqb_eq in Hb. exact Hb.
Qed.

Lemma feedback_low_inj a : 0 <= a < 32 -> feedback a mod 32 = 0 -> a = 0.
Proof.
  intros Ha E.
  assert (S : forallb (fun a => negb (feedback a mod 32 =? 0) || (a =? 0)) (zrange 32) = true)
    by (vm_compute; reflexivity).
  apply (sweep 32 _ S) in Ha. rewrite E in Ha. cbn in Ha. lia.
Qed.

(** One clock of the register with a zero input. *)
Definition clk (c : Z) : Z := Z.lxor (c mod 2 ^ 25 * 32) (feedback (c / 2 ^ 25)).

Lemma step_clk c v : in30 c -> polymod_step c v = Z.lxor (clk c) v.
Proof.
  intros Hc. unfold polymod_step, in30 in *. rewrite fold_cond_lxor. fold (feedback (Z.shiftr c 25)).
  unfold clk. rewrite Z.shiftr_div_pow2 by lia.
  assert (E : u32 (Z.shiftl (Z.land c 33554431) 5) = c mod 2 ^ 25 * 32).
  { change 33554431 with (2 ^ 25 - 1). rewrite land_ones_mod by lia.
    rewrite Z.shiftl_mul_pow2 by lia. change (2 ^ 5) with 32.
    pose proof (Z.mod_pos_bound c (2 ^ 25) ltac:(lia)). apply u32_id. lia. }
  rewrite E. rewrite !Z.lxor_assoc. f_equal. apply Z.lxor_comm.
Qed.

Lemma top_range c : in30 c -> 0 <= c / 2 ^ 25 < 32.
Proof. unfold in30. intros. split; [apply Z.div_pos | apply Z.div_lt_upper_bound]; lia. Qed.

Lemma clk_range c : in30 c -> in30 (clk c).
Proof.
  intros Hc. unfold clk. apply lxor_range; try lia.
  - pose proof (Z.mod_pos_bound c (2 ^ 25) ltac:(lia)). lia.
  - apply feedback_range, top_range, Hc.
Qed.

Lemma clk_lxor a b : in30 a -> in30 b -> clk (Z.lxor a b) = Z.lxor (clk a) (clk b).
Proof.
  intros Ha Hb. unfold clk.
  assert (E1 : Z.lxor a b mod 2 ^ 25 * 32 = Z.lxor (a mod 2 ^ 25 * 32) (b mod 2 ^ 25 * 32)).
  { rewrite <- !land_ones_mod by lia. rewrite land_lxor. change 32 with (2 ^ 5).
    rewrite <- !Z.shiftl_mul_pow2 by lia. apply Z.shiftl_lxor. }
  assert (E2 : Z.lxor a b / 2 ^ 25 = Z.lxor (a / 2 ^ 25) (b / 2 ^ 25)).
  { rewrite <- !Z.shiftr_div_pow2 by lia. apply Z.shiftr_lxor. }
  rewrite E1, E2, feedback_lxor by (apply top_range; auto). apply lxor_4.
Qed.

Lemma clk_0 : clk 0 = 0.
Proof. reflexivity. Qed.

Lemma clk_zero c : in30 c -> clk c = 0 -> c = 0.
Proof.
  intros Hc E. unfold clk in E. apply Z.lxor_eq in E.
  assert (Et : c / 2 ^ 25 = 0).
  { apply feedback_low_inj; [apply top_range; auto |]. rewrite <- E. apply Z_mod_mult. }
  rewrite Et in E. change (feedback 0) with 0 in E.
  unfold in30 in Hc. rewrite (Z.div_mod c (2 ^ 25)) by lia. lia.
Qed.

Lemma clk_small c : 0 <= c < 2 ^ 25 -> clk c = c * 32.
Proof.
  intros. unfold clk. rewrite Z.mod_small, Z.div_small by lia. change (feedback 0) with 0.
  apply Z.lxor_0_r.
Qed.

(** ** Runs of the register *)
Definition reg (c : Z) (vs : list Z) : Z := fold_left polymod_step vs c.

Lemma in30_small v : 0 <= v < 32 -> in30 v.
Proof. unfold in30. intros. lia. Qed.

Lemma reg_range vs : forall c, in30 c -> grp 5 vs -> in30 (reg c vs).
Proof.
  induction vs as [| v vs IH]; intros c Hc Hv; cbn; auto. inversion Hv; subst.
  apply IH; auto. rewrite step_clk by auto. apply lxor_range; [lia | apply clk_range; auto | lia].
Qed.

Lemma reg_app c a b : reg c (a ++ b) = reg (reg c a) b.
Proof. apply fold_left_app. Qed.

Fixpoint xors (a b : list Z) : list Z :=
  match a, b with x :: a', y :: b' => Z.lxor x y :: xors a' b' | _, _ => [] end.

Lemma xors_grp a b : grp 5 a -> grp 5 b -> grp 5 (xors a b).
Proof.
  revert b. induction a as [| x a IH]; intros [| y b] Ha Hb; cbn; try constructor.
  - inversion Ha; inversion Hb; subst. apply lxor_range; lia.
  - inversion Ha; inversion Hb; subst. apply IH; auto.
Qed.

(** Superposition. *)
Lemma reg_lxor vs : forall ws c d, length vs = length ws -> in30 c -> in30 d -> grp 5 vs -> grp 5 ws ->
  reg (Z.lxor c d) (xors vs ws) = Z.lxor (reg c vs) (reg d ws).
Proof.
  induction vs as [| v vs IH]; intros [| w ws] c d L Hc Hd Hv Hw; try discriminate; [reflexivity |].
  inversion Hv; inversion Hw; subst. unfold reg in *. cbn [xors fold_left].
  rewrite !step_clk; auto.
  - rewrite clk_lxor by auto. rewrite lxor_4. apply IH; auto.
    + apply lxor_range; [lia | apply clk_range; auto | lia].
    + apply lxor_range; [lia | apply clk_range; auto | lia].
  - apply lxor_range; auto; lia.
Qed.

Lemma reg_0_small vs : (length vs <= 6)%nat -> grp 5 vs -> reg 0 vs = bev (2 ^ 5) vs.
Proof.
  induction vs as [| v vs IH] using rev_ind; intros L Hv; [reflexivity |].
  apply Forall_app in Hv as [Hv Hx]. inversion Hx; subst.
  rewrite app_length in L. cbn in L.
  rewrite reg_app. rewrite IH by (auto; lia). cbn [reg fold_left]. rewrite bev_snoc.
  pose proof (bev_range (2 ^ 5) vs ltac:(lia) Hv) as R.
  assert ((2 ^ 5) ^ zlen vs <= 2 ^ 25).
  { rewrite <- Z.pow_mul_r by (unfold zlen; lia). apply Z.pow_le_mono_r; unfold zlen; lia. }
  rewrite step_clk by (unfold in30; lia). rewrite clk_small by lia.
  change 32 with (2 ^ 5). rewrite Z.lxor_lor.
  2:{ apply Z.bits_inj'. intros i Hi. rewrite Z.land_spec, Z.bits_0.
      destruct (Z.lt_ge_cases i 5).
      - rewrite Z.mul_pow2_bits_low by lia. reflexivity.
      - rewrite <- (Z.mod_small v (2 ^ 5)) by lia. rewrite Z.mod_pow2_bits_high by lia. apply andb_false_r. }
  apply lor_add; lia.
Qed.

Lemma xors_0_r a n : length a = n -> xors a (repeat 0 n) = a.
Proof.
  revert n. induction a as [| x a IH]; intros [| n] L; try discriminate; [reflexivity |].
  cbn. rewrite Z.lxor_0_r, IH; auto.
Qed.
Lemma xors_0_l a n : length a = n -> xors (repeat 0 n) a = a.
Proof.
  revert n. induction a as [| x a IH]; intros [| n] L; try discriminate; [reflexivity |].
  cbn [repeat xors]. rewrite Z.lxor_0_l, IH; auto.
Qed.

Lemma grp_zeros n : grp 5 (repeat 0 n).
Proof. induction n; cbn; constructor; auto; lia. Qed.

(** The last six symbols enter the register unchanged. *)
Lemma reg_six c vs : in30 c -> length vs = 6%nat -> grp 5 vs ->
  reg c vs = Z.lxor (reg c (repeat 0 6)) (bev (2 ^ 5) vs).
Proof.
  intros Hc L Hv. rewrite <- (reg_0_small vs) by (auto; lia).
  rewrite <- reg_lxor; auto.
  - rewrite Z.lxor_0_r, xors_0_l by auto. reflexivity.
  - unfold in30. lia.
  - apply grp_zeros.
Qed.

(** ** Checksum creation and verification *)
Definition chk_digits (m : Z) : list Z :=
  map (fun p => Z.land (u8 (Z.shiftr m (5 * (5 - p)))) 31) [0; 1; 2; 3; 4; 5].

Lemma chk_digits_ok m : in30 m -> grp 5 (chk_digits m) /\ length (chk_digits m) = 6%nat /\ bev (2 ^ 5) (chk_digits m) = m.
Proof.
  unfold in30. intros Hm.
  assert (D : forall k, 0 <= k -> Z.land (u8 (Z.shiftr m k)) 31 = (m / 2 ^ k) mod 32).
  { intros k Hk. change 31 with (2 ^ 5 - 1). rewrite land_ones_mod by lia.
    unfold u8. rewrite mod_mod_pow by lia. rewrite Z.shiftr_div_pow2 by lia. reflexivity. }
  unfold chk_digits. cbn [map]. rewrite !D by lia.
  split; [| split; [reflexivity |]].
  - repeat constructor; apply Z.mod_pos_bound; lia.
  - unfold bev. cbn [fold_left].
    change (5 * (5 - 0)) with 25. change (5 * (5 - 1)) with 20. change (5 * (5 - 2)) with 15.
    change (5 * (5 - 3)) with 10. change (5 * (5 - 4)) with 5. change (5 * (5 - 5)) with 0.
    change (2 ^ 0) with 1. rewrite Z.div_1_r.
    change (2 ^ 25) with 33554432. change (2 ^ 20) with 1048576. change (2 ^ 15) with 32768.
    change (2 ^ 10) with 1024. change (2 ^ 5) with 32. change (2 ^ 30) with 1073741824 in Hm.
    Z.div_mod_to_equations. lia.
Qed.

Lemma polymod_reg vs : polymod vs = reg 1 vs.
Proof. reflexivity. Qed.

Lemma in30_1 : in30 1.
Proof. unfold in30. lia. Qed.

Lemma checksum_unique pre chk : grp 5 pre -> length chk = 6%nat -> grp 5 chk ->
  (polymod (pre ++ chk) = 1 <-> chk = chk_digits (Z.lxor (polymod (pre ++ repeat 0 6)) 1)).
Proof.
  intros Hp L Hc. rewrite (polymod_reg (pre ++ chk)), (polymod_reg (pre ++ repeat 0 6)), !reg_app.
  assert (Hr : in30 (reg 1 pre)) by (apply reg_range; auto; apply in30_1).
  set (c := reg 1 pre) in *.
  assert (Hz : in30 (reg c (repeat 0 6))) by (apply reg_range; auto; apply grp_zeros).
  set (z := reg c (repeat 0 6)) in *.
  assert (Hm : in30 (Z.lxor z 1)) by (apply lxor_range; auto; lia).
  destruct (chk_digits_ok _ Hm) as (G & L6 & V).
  rewrite reg_six by auto. fold z.
  split; intros E.
  - apply (bev_inj (2 ^ 5)); auto; try lia.
    rewrite V. rewrite <- E. rewrite <- Z.lxor_assoc, Z.lxor_nilpotent, Z.lxor_0_l. reflexivity.
  - rewrite E, V. rewrite <- Z.lxor_assoc, Z.lxor_nilpotent, Z.lxor_0_l. reflexivity.
Qed.

(** ** Error detection *)
Lemma reg_zeros_0 n : reg 0 (repeat 0 n) = 0.
Proof. induction n; cbn; auto. Qed.

Lemma reg_zeros_nonzero n : forall c, in30 c -> c <> 0 -> reg c (repeat 0 n) <> 0.
Proof.
  induction n as [| n IH]; intros c Hc Nc; [exact Nc |].
  cbn [repeat reg fold_left]. apply IH.
  - rewrite step_clk, Z.lxor_0_r by auto. apply clk_range; auto.
  - rewrite step_clk, Z.lxor_0_r by auto. intro E. apply clk_zero in E; auto.
Qed.

Lemma reg_zeros_inj n c d : in30 c -> in30 d -> reg c (repeat 0 n) = reg d (repeat 0 n) -> c = d.
Proof.
  intros Hc Hd E. apply Z.lxor_eq. destruct (Z.eq_dec (Z.lxor c d) 0) as [| N]; auto. exfalso.
  assert (I : in30 (Z.lxor c d)) by (apply lxor_range; auto; lia).
  apply (reg_zeros_nonzero n _ I N).
  rewrite <- (xors_0_r (repeat 0 n) n) by (apply repeat_length).
  rewrite reg_lxor; auto; try apply grp_zeros. rewrite E. apply Z.lxor_nilpotent.
Qed.

(** Multiplication of the six 5-bit groups by the generator of GF(32) (polynomial x^5+x^3+1). *)
Definition gmul (c : Z) : Z :=
  let t := Z.land (Z.shiftr c 4) 0x02108421 in
  Z.lxor (Z.shiftl (Z.land c 0x1ef7bdef) 1) (Z.lxor t (Z.shiftl t 3)).

Lemma gmul_lxor a b : gmul (Z.lxor a b) = Z.lxor (gmul a) (gmul b).
Proof.
  unfold gmul. rewrite Z.shiftr_lxor, !land_lxor, !Z.shiftl_lxor.
  set (x := Z.shiftl (Z.land a _) 1). set (y := Z.shiftl (Z.land b _) 1).
  set (p := Z.land (Z.shiftr a 4) _). set (q := Z.land (Z.shiftr b 4) _).
  rewrite (lxor_4 p q). apply lxor_4.
Qed.

Lemma land_range a m n : 0 <= n -> 0 <= a -> 0 <= m < 2 ^ n -> 0 <= Z.land a m < 2 ^ n.
Proof.
  intros. assert (E : Z.land a m = Z.land a m mod 2 ^ n).
  { apply Z.bits_inj'. intros i Hi. destruct (Z.lt_ge_cases i n).
    - rewrite Z.mod_pow2_bits_low by lia. reflexivity.
    - rewrite Z.mod_pow2_bits_high by lia. rewrite Z.land_spec.
      rewrite <- (Z.mod_small m (2 ^ n)) by lia. rewrite Z.mod_pow2_bits_high by lia. apply andb_false_r. }
  rewrite E. apply Z.mod_pos_bound. apply Z.pow_pos_nonneg; lia.
Qed.

Lemma gmul_range c : in30 c -> in30 (gmul c).
Proof.
  unfold in30. intros. unfold gmul.
  assert (0 <= Z.shiftr c 4) by (apply Z.shiftr_nonneg; lia).
  pose proof (land_range c 0x1ef7bdef 29 ltac:(lia) ltac:(lia) ltac:(lia)).
  pose proof (land_range (Z.shiftr c 4) 0x02108421 27 ltac:(lia) ltac:(lia) ltac:(lia)).
  rewrite !Z.shiftl_mul_pow2 by lia.
  apply lxor_range; [lia | lia |]. apply lxor_range; lia.
Qed.

(** Two additive functions that agree on powers of two agree. *)
Lemma linear_ext (F G : Z -> Z) (n : nat) :
  F 0 = 0 -> G 0 = 0 ->
  (forall a b, 0 <= a < 2 ^ Z.of_nat n -> 0 <= b < 2 ^ Z.of_nat n -> F (Z.lxor a b) = Z.lxor (F a) (F b)) ->
  (forall a b, 0 <= a < 2 ^ Z.of_nat n -> 0 <= b < 2 ^ Z.of_nat n -> G (Z.lxor a b) = Z.lxor (G a) (G b)) ->
  forallb (fun i => F (2 ^ i) =? G (2 ^ i)) (zrange n) = true ->
  forall c, 0 <= c < 2 ^ Z.of_nat n -> F c = G c.
Proof.
  intros F0 G0 HF HG HS.
  assert (K : forall k : nat, (k <= n)%nat -> forall c, 0 <= c < 2 ^ Z.of_nat k -> F c = G c).
  { induction k as [| k IH]; intros Hk c Hc.
    - change (2 ^ Z.of_nat 0) with 1 in Hc. replace c with 0 by lia. congruence.
    - rewrite Nat2Z.inj_succ, Z.pow_succ_r in Hc by lia.
      assert (Pk : 0 < 2 ^ Z.of_nat k) by (apply Z.pow_pos_nonneg; lia).
      assert (Pn : 2 ^ Z.of_nat k <= 2 ^ Z.of_nat n) by (apply Z.pow_le_mono_r; lia).
      assert (Pn' : 2 ^ Z.of_nat k < 2 ^ Z.of_nat n) by (apply Z.pow_lt_mono_r; lia).
      destruct (Z.lt_ge_cases c (2 ^ Z.of_nat k)) as [Hlt | Hge]; [apply IH; lia |].
      assert (E : c = Z.lxor (2 ^ Z.of_nat k) (c - 2 ^ Z.of_nat k)).
      { rewrite Z.lxor_lor.
        - pose proof (lor_add 1 (c - 2 ^ Z.of_nat k) (Z.of_nat k) ltac:(lia) ltac:(lia)) as L.
          rewrite Z.mul_1_l in L. lia.
        - apply Z.bits_inj'. intros i Hi. rewrite Z.land_spec, Z.bits_0.
          destruct (Z.lt_ge_cases i (Z.of_nat k)).
          + rewrite Z.pow2_bits_false by lia. reflexivity.
          + rewrite <- (Z.mod_small (c - 2 ^ Z.of_nat k) (2 ^ Z.of_nat k)) by lia.
            rewrite Z.mod_pow2_bits_high by lia. apply andb_false_r. }
      rewrite E. rewrite HF, HG by lia.
      rewrite (IH ltac:(lia) (c - 2 ^ Z.of_nat k)) by lia. f_equal.
      pose proof (sweep n _ HS (Z.of_nat k) ltac:(lia)) as Q. cbn beta in Q. apply Z.eqb_eq in Q. exact Q. }
  intros c Hc. apply (K n); auto.
Qed.

Lemma gmul_clk c : in30 c -> gmul (clk c) = clk (gmul c).
Proof.
  intros Hc. apply (linear_ext (fun c => gmul (clk c)) (fun c => clk (gmul c)) 30); auto.
  - intros a b Ha Hb. rewrite clk_lxor, gmul_lxor; auto.
  - intros a b Ha Hb. rewrite gmul_lxor, clk_lxor; auto; apply gmul_range; auto.
Qed.

Definition clks (n : nat) (c : Z) : Z := Nat.iter n clk c.
Definition gmuls (n : nat) (c : Z) : Z := Nat.iter n gmul c.

Lemma clks_range n c : in30 c -> in30 (clks n c).
Proof. intros. induction n; cbn; auto. apply clk_range; auto. Qed.
Lemma gmuls_range n c : in30 c -> in30 (gmuls n c).
Proof. intros. induction n; cbn; auto. apply gmul_range; auto. Qed.

Lemma gmul_clks n c : in30 c -> gmul (clks n c) = clks n (gmul c).
Proof.
  intros. induction n; auto. change (clks (S n) c) with (clk (clks n c)).
  change (clks (S n) (gmul c)) with (clk (clks n (gmul c))).
  rewrite gmul_clk by (apply clks_range; auto). rewrite IHn. reflexivity.
Qed.
Lemma gmuls_clks m n c : in30 c -> gmuls m (clks n c) = clks n (gmuls m c).
Proof.
  intros. induction m; auto. change (gmuls (S m) (clks n c)) with (gmul (gmuls m (clks n c))).
  rewrite IHm. apply (gmul_clks n (gmuls m c)). apply gmuls_range; auto.
Qed.

Lemma clks_succ_r n c : clks (S n) c = clks n (clk c).
Proof.
  induction n; auto. change (clk (clks (S n) c) = clk (clks n (clk c))). rewrite IHn. reflexivity.
Qed.

(** The register seeded with 1 does not return to a single symbol within 1022 clocks. *)
Fixpoint far (n : nat) (c : Z) : bool :=
  match n with O => true | S n' => let c' := clk c in (32 <=? c') && far n' c' end.

Lemma far_spec n : forall c m, far n c = true -> (1 <= m <= n)%nat -> 32 <= clks m c.
Proof.
  induction n as [| n IH]; intros c m H Hm; [lia |].
  cbn in H. apply andb_prop in H as [H1 H2].
  destruct m as [| m]; [lia |]. destruct m as [| m].
  - cbn. lia.
  - assert (E : clks (S (S m)) c = clks (S m) (clk c)) by (apply clks_succ_r).
    rewrite E. apply IH; auto. lia.
Qed.

Lemma far_one : far 1022 1 = true.
Proof. vm_compute. reflexivity. Qed.

Lemma symbol_is_power e : 0 <= e < 32 -> e <> 0 -> exists k, e = gmuls k 1.
Proof.
  intros He Ne.
  assert (S : forallb (fun e => (e =? 0) || existsb (fun k => e =? gmuls k 1) (seq 0 31)) (zrange 32) = true)
    by (vm_compute; reflexivity).
  apply (sweep 32 _ S) in He. apply orb_prop in He as [He | He]; [lia |].
  apply existsb_exists in He as (k & _ & E). exists k. lia.
Qed.

Lemma gmuls_add a b c : gmuls (a + b) c = gmuls a (gmuls b c).
Proof. induction a; auto. cbn [Nat.add]. change (gmul (gmuls (a + b) c) = gmul (gmuls a (gmuls b c))). rewrite IHa. reflexivity. Qed.

Lemma gmul_small c : 0 <= c < 32 -> 0 <= gmul c < 32.
Proof.
  intros Hc. assert (S : forallb (fun c => (0 <=? gmul c) && (gmul c <? 32)) (zrange 32) = true)
    by (vm_compute; reflexivity).
  apply (sweep 32 _ S) in Hc. lia.
Qed.
Lemma gmuls_small n c : 0 <= c < 32 -> 0 <= gmuls n c < 32.
Proof. intros. induction n; cbn; auto. apply gmul_small; auto. Qed.

Lemma gmuls_31 c : in30 c -> gmuls 31 c = c.
Proof.
  intros Hc. apply (linear_ext (gmuls 31) (fun c => c) 30); auto.
  intros a b _ _. clear. generalize 31%nat. intros n. induction n as [| n IHn]; auto.
  change (gmul (gmuls n (Z.lxor a b)) = Z.lxor (gmul (gmuls n a)) (gmul (gmuls n b))).
  rewrite IHn. apply gmul_lxor.
Qed.

(** Two symbol errors less than 1023 apart never cancel. *)
Lemma two_far m e1 e2 : (1 <= m <= 1022)%nat -> 0 <= e1 < 32 -> e1 <> 0 -> 0 <= e2 < 32 ->
  clks m e1 <> e2.
Proof.
  intros Hm H1 N1 H2 E.
  destruct (symbol_is_power e1 H1 N1) as [k ->].
  rewrite <- gmuls_clks in E by apply in30_1.
  assert (I : in30 (clks m 1)) by (apply clks_range, in30_1).
  (* undo the k multiplications *)
  assert (U : forall q, gmuls (31 * q) (clks m 1) = clks m 1).
  { induction q; [reflexivity |]. replace (31 * S q)%nat with (31 + 31 * q)%nat by lia.
    rewrite gmuls_add, IHq. apply gmuls_31; auto. }
  assert (E' : clks m 1 = gmuls (31 * k - k) e2).
  { rewrite <- E. rewrite <- gmuls_add. replace (31 * k - k + k)%nat with (31 * k)%nat by lia.
    symmetry. apply U. }
  pose proof (gmuls_small (31 * k - k) e2 H2). pose proof (far_spec 1022 1 m far_one Hm). lia.
Qed.

Lemma reg_zeros_clks n : forall c, in30 c -> reg c (repeat 0 n) = clks n c.
Proof.
  induction n as [| n IH]; intros c Hc; [reflexivity |].
  cbn [repeat reg fold_left]. fold (reg (polymod_step c 0) (repeat 0 n)).
  rewrite step_clk, Z.lxor_0_r by auto. rewrite IH by (apply clk_range; auto).
  symmetry. apply clks_succ_r.
Qed.
