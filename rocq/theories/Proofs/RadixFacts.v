(** Limbs and bytes: mixed-radix values, the loads and the stores of Model/Edwards.v. *)
From Verif.Model Require Import Base Limb EdwardsTable EdwardsCode Edwards.
From Verif.Spec Require Import EdSpec.
From Verif.Proofs Require Import Util LimbFacts.

(** ** Bytes *)
Lemma le_value_range l : bytes_ok l -> 0 <= le_value l < 256 ^ Z.of_nat (length l).
Proof.
  intros H. induction H as [|b l B H IH]; [cbn; lia |]. cbn [le_value length]. rewrite Nat2Z.inj_succ, Z.pow_succ_r by lia. unfold is_byte in B. lia.
Qed.
Lemma le_value_app l m : le_value (l ++ m) = le_value l + 256 ^ Z.of_nat (length l) * le_value m.
Proof.
  induction l as [|b l IH]; cbn [app le_value length]; [change (Z.of_nat 0) with 0; rewrite Z.pow_0_r; lia |].
  rewrite IH, Nat2Z.inj_succ, Z.pow_succ_r by lia. lia.
Qed.
Lemma le_value_skipn o l : bytes_ok l -> le_value (skipn o l) = le_value l / 256 ^ Z.of_nat o.
Proof.
  intros H. destruct (Nat.le_gt_cases (length l) o) as [L | L].
  - rewrite skipn_all2 by lia. pose proof (le_value_range _ H) as R. cbn [le_value]. symmetry. apply Z.div_small. split; [lia |]. apply (Z.lt_le_trans _ _ _ (proj2 R)). apply Z.pow_le_mono_r; lia.
  - rewrite <- (firstn_skipn o l) at 2. rewrite le_value_app. rewrite firstn_length_le by lia. assert (HF : bytes_ok (firstn o l)) by (apply Forall_firstn'; exact H).
    pose proof (le_value_range _ HF) as R. rewrite firstn_length_le in R by lia. assert (0 < 256 ^ Z.of_nat o) by (apply Z.pow_pos_nonneg; lia).
    rewrite (Z.mul_comm (256 ^ _)), Z.div_add by lia. rewrite Z.div_small by lia. lia.
Qed.
Lemma le_value_firstn n l : bytes_ok l -> le_value (firstn n l) = le_value l mod 256 ^ Z.of_nat n.
Proof.
  intros H. rewrite <- (firstn_skipn n l) at 2. rewrite le_value_app. assert (HF : bytes_ok (firstn n l)) by (apply Forall_firstn'; exact H). pose proof (le_value_range _ HF) as R.
  destruct (Nat.le_gt_cases n (length l)) as [L | L].
  - rewrite firstn_length_le in * by lia. rewrite Z.mul_comm, Z.mod_add by lia. symmetry. apply Z.mod_small. exact R.
  - rewrite skipn_all2 by lia. cbn [le_value]. rewrite Z.mul_0_r, Z.add_0_r. symmetry. apply Z.mod_small. split; [lia |]. apply (Z.lt_le_trans _ _ _ (proj2 R)). rewrite firstn_length. apply Z.pow_le_mono_r; lia.
Qed.
Lemma nth_byte l i : bytes_ok l -> 0 <= nth i l 0 < 256.
Proof. intros H. destruct (Nat.lt_ge_cases i (length l)) as [L | L]; [exact (proj1 (Forall_forall _ _) H _ (nth_In _ _ L)) |]. rewrite nth_overflow by lia. lia. Qed.
Lemma lor_shift a b n : 0 <= n -> 0 <= a < 2 ^ n -> Z.lor a (Z.shiftl b n) = a + b * 2 ^ n.
Proof. intros N A. rewrite Z.shiftl_mul_pow2 by lia. rewrite Z.lor_comm, lor_add by lia. lia. Qed.
Lemma load3_firstn s : bytes_ok s -> load3 s = le_value (firstn 3 s).
Proof.
  intros H. unfold load3. pose proof (nth_byte s 0 H). pose proof (nth_byte s 1 H). rewrite (lor_shift (nth 0 s 0)) by (pows; lia). rewrite lor_shift by (pows; lia).
  destruct s as [|a [|b [|c s]]]; cbn [nth firstn le_value]; pows; lia.
Qed.
Lemma load4_firstn s : bytes_ok s -> load4 s = le_value (firstn 4 s).
Proof.
  intros H. unfold load4. pose proof (nth_byte s 0 H). pose proof (nth_byte s 1 H). pose proof (nth_byte s 2 H).
  rewrite (lor_shift (nth 0 s 0)) by (pows; lia). rewrite (lor_shift (nth 0 s 0 + nth 1 s 0 * 2 ^ 8)) by (pows; lia). rewrite (lor_shift (nth 0 s 0 + nth 1 s 0 * 2 ^ 8 + nth 2 s 0 * 2 ^ 16)) by (change (2 ^ 24) with 16777216; pows; lia).
  change (2 ^ 24) with 16777216. destruct s as [|a [|b [|c [|e s]]]]; cbn [nth firstn le_value]; pows; lia.
Qed.
Lemma load_val n o s : bytes_ok s -> (n = 3 \/ n = 4)%nat -> load n (skipn o s) = (le_value s / 2 ^ (8 * Z.of_nat o)) mod 2 ^ (8 * Z.of_nat n).
Proof.
  intros H N. assert (HS : bytes_ok (skipn o s)) by (apply Forall_skipn'; exact H). rewrite !(Z.pow_mul_r 2 8) by lia. change (2 ^ 8) with 256.
  rewrite <- le_value_skipn by exact H. rewrite <- le_value_firstn by exact HS. unfold load. destruct N as [-> | ->]; cbn [Nat.eqb]; [apply load3_firstn | apply load4_firstn]; exact HS.
Qed.
Lemma mod_div_mod V a b c : 0 <= a -> 0 <= c -> a + c <= b -> ((V mod 2 ^ b) / 2 ^ a) mod 2 ^ c = (V / 2 ^ a) mod 2 ^ c.
Proof.
  intros A C B. assert (0 < 2 ^ a /\ 0 < 2 ^ c /\ 0 < 2 ^ b /\ 0 < 2 ^ (b - a - c)) as (? & ? & ? & ?) by (repeat split; apply Z.pow_pos_nonneg; lia).
  rewrite (Z.div_mod V (2 ^ b)) at 2 by lia. replace (2 ^ b) with (2 ^ a * (2 ^ c * 2 ^ (b - a - c))) at 2 by (rewrite <- !Z.pow_add_r by lia; f_equal; lia).
  replace (2 ^ a * (2 ^ c * 2 ^ (b - a - c)) * (V / 2 ^ b) + V mod 2 ^ b) with (V mod 2 ^ b + (2 ^ (b - a - c) * (V / 2 ^ b) * 2 ^ c) * 2 ^ a) by ring.
  rewrite Z.div_add by lia. rewrite Z.mod_add by lia. reflexivity.
Qed.

(** ** Mixed-radix values: limb [i] has width [k_i] *)
Fixpoint mval (ks s : list Z) : Z := match ks, s with k :: ks', x :: s' => x + 2 ^ k * mval ks' s' | _, _ => 0 end.
(** Limbs in range, except that the last one is only bounded by [2^lastk]. *)
Fixpoint mrange (lastk : Z) (ks s : list Z) : Prop :=
  match ks, s with
  | [_], [x] => 0 <= x < 2 ^ lastk
  | k :: ks', x :: s' => 0 <= x < 2 ^ k /\ mrange lastk ks' s'
  | [], [] => True
  | _, _ => False
  end.
Definition offset (ks : list Z) (i : nat) : Z := fold_right Z.add 0 (firstn i ks).
Lemma mrange_cons lastk k k' ks x s : mrange lastk (k :: k' :: ks) (x :: s) -> 0 <= x < 2 ^ k /\ mrange lastk (k' :: ks) s.
Proof. cbn [mrange]. auto. Qed.
Lemma offset_nonneg ks i : Forall (fun k => 0 <= k) ks -> 0 <= offset ks i.
Proof. intros H. revert i. unfold offset. induction H; intros [|i]; cbn [firstn fold_right]; try lia. specialize (IHForall i). lia. Qed.
Lemma mval_div lastk ks s i : Forall (fun k => 0 <= k) ks -> mrange lastk ks s -> (i < length ks)%nat -> mval ks s / 2 ^ offset ks i = mval (skipn i ks) (skipn i s).
Proof.
  intros K. revert s i. induction K as [|k ks K1 K IH]; intros s i R I; cbn [length] in I; [lia |]. cbv beta in K1.
  destruct i as [|i]; [cbn [skipn offset firstn fold_right]; unfold offset; cbn [firstn fold_right]; rewrite Z.pow_0_r, Z.div_1_r; reflexivity |].
  destruct s as [|x s]; [destruct ks; contradiction |]. destruct ks as [|k' ks]; [cbn in I; lia |]. apply mrange_cons in R. destruct R as [X R].
  pose proof (offset_nonneg (k' :: ks) i K) as P. cbn [skipn]. rewrite <- IH by (auto; cbn [length] in *; lia). change (offset (k :: k' :: ks) (S i)) with (k + offset (k' :: ks) i).
  rewrite Z.pow_add_r by lia. rewrite <- Z.div_div by (try apply Z.pow_nonzero; try apply Z.pow_pos_nonneg; lia). f_equal.
  change (mval (k :: k' :: ks) (x :: s)) with (x + 2 ^ k * mval (k' :: ks) s). rewrite Z.mul_comm, Z.div_add by (apply Z.pow_nonzero; lia). rewrite Z.div_small by lia. lia.
Qed.
Lemma mrange_nth lastk ks s i : mrange lastk ks s -> (S i < length ks)%nat -> 0 <= get s i < 2 ^ nth i ks 0.
Proof.
  revert s i. induction ks as [|k ks IH]; intros s i R I; cbn [length] in I; [lia |]. destruct s as [|x s]; [destruct ks; contradiction |]. destruct ks as [|k' ks]; [cbn in I; lia |].
  apply mrange_cons in R. destruct R as [X R]. destruct i as [|i]; unfold get; cbn [nth]; [exact X |]. apply IH; [exact R | cbn [length] in *; lia].
Qed.
Lemma mval_skipn lastk ks s i : mrange lastk ks s -> (i < length ks)%nat ->
  mval (skipn i ks) (skipn i s) = get s i + 2 ^ nth i ks 0 * mval (skipn (S i) ks) (skipn (S i) s).
Proof.
  revert s i. induction ks as [|k ks IH]; intros s i R I; cbn [length] in I; [lia |]. destruct s as [|x s]; [destruct ks; contradiction |].
  destruct i as [|i]; [reflexivity |]. destruct ks as [|k' ks]; [cbn in I; lia |]. apply mrange_cons in R. cbn [skipn nth]. unfold get. cbn [nth]. apply IH; [apply R | cbn [length] in *; lia].
Qed.

(** ** Stores *)
Definition store_okb (ks : list Z) (j : nat) (s : nat * Z * option (nat * Z)) : bool :=
  let '(i, a, o) := s in
  let n := length ks in
  (i <? n)%nat && (0 <=? a) && (8 * Z.of_nat j =? offset ks i + a) &&
  match o with
  | None => (S i =? n)%nat || (a + 8 <=? nth i ks 0)
  | Some (i', b) => (i' =? S i)%nat && (i' <? n)%nat && (0 <=? b) && (a + b =? nth i ks 0) && ((S i' =? n)%nat || (8 <=? b + nth i' ks 0))
  end.
Lemma u8_lor a b : u8 (Z.lor a b) = Z.lor (u8 a) (u8 b).
Proof. unfold u8. rewrite <- !Z.land_ones by lia. apply Z.bits_inj'. intros i Hi. rewrite !Z.land_spec, !Z.lor_spec, !Z.land_spec. destruct (Z.testbit a i), (Z.testbit b i), (Z.testbit (Z.ones 8) i); reflexivity. Qed.
Lemma u8_wrap t x : u8 (go_wrap t x) = u8 x.
Proof.
  unfold u8, go_wrap. destruct t; [unfold i32 | unfold i64].
  - pose proof (Z.div_mod (x + 2 ^ 31) (2 ^ 32) ltac:(lia)) as D. replace ((x + 2 ^ 31) mod 2 ^ 32 - 2 ^ 31) with (x + (- (2 ^ 24 * ((x + 2 ^ 31) / 2 ^ 32))) * 2 ^ 8) by lia. apply Z.mod_add. lia.
  - pose proof (Z.div_mod (x + 2 ^ 63) (2 ^ 64) ltac:(lia)) as D. replace ((x + 2 ^ 63) mod 2 ^ 64 - 2 ^ 63) with (x + (- (2 ^ 56 * ((x + 2 ^ 63) / 2 ^ 64))) * 2 ^ 8) by lia. apply Z.mod_add. lia.
Qed.
Lemma div_pow_add x y a b : 0 <= a <= b -> (x + 2 ^ b * y) / 2 ^ a = x / 2 ^ a + 2 ^ (b - a) * y.
Proof.
  intros H. replace (2 ^ b * y) with ((2 ^ (b - a) * y) * 2 ^ a) by (replace (2 ^ b) with (2 ^ (b - a) * 2 ^ a) by (rewrite <- Z.pow_add_r by lia; f_equal; lia); ring).
  apply Z.div_add. apply Z.pow_nonzero; lia.
Qed.
Lemma u8_add_mul x y b : 8 <= b -> u8 (x + 2 ^ b * y) = u8 x.
Proof. intros H. unfold u8. replace (2 ^ b * y) with ((2 ^ (b - 8) * y) * 2 ^ 8) by (replace (2 ^ b) with (2 ^ (b - 8) * 2 ^ 8) by (rewrite <- Z.pow_add_r by lia; f_equal; lia); ring). apply Z.mod_add. lia. Qed.
Lemma mval_nil_l s : mval [] s = 0. Proof. reflexivity. Qed.
Lemma store_val lastk t ks x j s : Forall (fun k => 0 <= k) ks -> mrange lastk ks x -> store_okb ks j s = true ->
  store t x s = (mval ks x / 2 ^ (8 * Z.of_nat j)) mod 256.
Proof.
  intros K R H. destruct s as [[i a] o]. unfold store_okb in H. repeat (apply andb_true_iff in H; destruct H as [H ?]). apply Nat.ltb_lt in H. apply Z.leb_le in H2. apply Z.eqb_eq in H1.
  rewrite H1. rewrite Z.pow_add_r by (try apply offset_nonneg; auto). rewrite <- Z.div_div by (try apply Z.pow_nonzero; try apply Z.pow_pos_nonneg; try apply offset_nonneg; auto; lia).
  rewrite (mval_div lastk) by auto. rewrite (mval_skipn lastk) by auto. change 256 with (2 ^ 8). fold (u8 ((get x i + 2 ^ nth i ks 0 * mval (skipn (S i) ks) (skipn (S i) x)) / 2 ^ a)).
  assert (KN : forall i, 0 <= nth i ks 0). { intros i'. destruct (Nat.lt_ge_cases i' (length ks)) as [L | L]; [exact (proj1 (Forall_forall _ _) K _ (nth_In _ _ L)) | rewrite nth_overflow by lia; lia]. }
  unfold store. destruct o as [[i' b]|].
  - repeat (apply andb_true_iff in H0; destruct H0 as [H0 ?]). apply Nat.eqb_eq in H0. subst i'. apply Nat.ltb_lt in H6. apply Z.leb_le in H5. apply Z.eqb_eq in H4.
    rewrite u8_lor, u8_wrap, <- u8_lor. rewrite Z.shiftr_div_pow2 by lia. pose proof (mrange_nth _ _ _ _ R H6) as G.
    rewrite lor_shift; [|lia|].
    2:{ split; [apply Z.div_pos; [lia | apply Z.pow_pos_nonneg; lia] |]. apply Z.div_lt_upper_bound; [apply Z.pow_pos_nonneg; lia |]. rewrite <- Z.pow_add_r by lia. rewrite H4. lia. }
    rewrite (mval_skipn lastk _ _ (S i)) by auto. rewrite div_pow_add by lia. replace (nth i ks 0 - a) with b by lia.
    apply orb_true_iff in H3. destruct H3 as [E | E].
    + apply Nat.eqb_eq in E. rewrite (skipn_all2 ks) by lia. rewrite mval_nil_l. f_equal. ring.
    + apply Z.leb_le in E. rewrite Z.mul_add_distr_l, Z.add_assoc, Z.mul_assoc, <- Z.pow_add_r by auto. rewrite u8_add_mul by lia. f_equal. ring.
  - rewrite Z.shiftr_div_pow2 by lia. apply orb_true_iff in H0. destruct H0 as [E | E].
    + apply Nat.eqb_eq in E. rewrite (skipn_all2 ks) by lia. rewrite mval_nil_l, Z.mul_0_r, Z.add_0_r. reflexivity.
    + apply Z.leb_le in E. rewrite div_pow_add by lia. rewrite u8_add_mul by lia. reflexivity.
Qed.
Theorem stores_val lastk t ks x sts : Forall (fun k => 0 <= k) ks -> mrange lastk ks x -> length sts = 32%nat ->
  forallb (fun '(j, s) => store_okb ks j s) (combine (seq 0 32) sts) = true -> map (store t x) sts = le32 (mval ks x).
Proof.
  intros K R L H. unfold le32. apply (nth_ext _ _ 0 0); [rewrite !map_length, seq_length; exact L |]. intros j J. rewrite map_length, L in J.
  rewrite (nth_indep _ 0 (store t x (O, 0, None))) by (rewrite map_length; lia). rewrite map_nth.
  rewrite (nth_indep (map _ (seq 0 32)) 0 ((fun i : nat => (mval ks x / 256 ^ Z.of_nat i) mod 256) O)) by (rewrite map_length, seq_length; lia). rewrite (map_nth (fun i : nat => (mval ks x / 256 ^ Z.of_nat i) mod 256)). rewrite seq_nth by lia. cbn [Nat.add].
  change (256 ^ Z.of_nat j) with ((2 ^ 8) ^ Z.of_nat j). rewrite <- Z.pow_mul_r by lia. apply (store_val lastk); [exact K | exact R |].
  rewrite forallb_forall in H. specialize (H (j, nth j sts (O, 0, None))). cbv beta iota in H. apply H.
  replace (j, nth j sts (O, 0, None)) with (nth j (combine (seq 0 32) sts) (O, (O, 0, None))); [apply nth_In; rewrite combine_length, seq_length, L; lia |].
  rewrite combine_nth by (rewrite seq_length; lia). rewrite seq_nth by lia. reflexivity.
Qed.

(** ** [le32] *)
Lemma le32_length n : length (le32 n) = 32%nat. Proof. unfold le32. rewrite map_length, seq_length. reflexivity. Qed.
Lemma le32_bytes n : bytes_ok (le32 n).
Proof. unfold le32. apply Forall_forall. intros b H. apply in_map_iff in H. destruct H as (i & <- & _). apply Z.mod_pos_bound. lia. Qed.
Lemma le_value_digits n a m : le_value (map (fun i => (n / 256 ^ Z.of_nat i) mod 256) (seq a m)) = (n / 256 ^ Z.of_nat a) mod 256 ^ Z.of_nat m.
Proof.
  revert a. induction m as [|m IH]; intros a; cbn [seq map le_value]; [change (Z.of_nat 0) with 0; rewrite Z.pow_0_r, Z.mod_1_r; reflexivity |].
  rewrite IH. rewrite (Nat2Z.inj_succ m). set (q := n / 256 ^ Z.of_nat a). replace (n / 256 ^ Z.of_nat (S a)) with (q / 256).
  2:{ unfold q. rewrite Z.div_div by (try apply Z.pow_nonzero; lia). f_equal. rewrite Nat2Z.inj_succ, Z.pow_succ_r by lia. lia. }
  rewrite Z.pow_succ_r by lia. rewrite Z.rem_mul_r by (try apply Z.pow_pos_nonneg; lia). reflexivity.
Qed.
Lemma le_value_le32 n : 0 <= n < 2 ^ 256 -> le_value (le32 n) = n.
Proof. intros H. unfold le32. rewrite le_value_digits. change (256 ^ Z.of_nat 0) with 1. rewrite Z.div_1_r. apply Z.mod_small. change (256 ^ Z.of_nat 32) with (2 ^ 256). exact H. Qed.
Lemma le_value_inj l m : bytes_ok l -> bytes_ok m -> length l = length m -> le_value l = le_value m -> l = m.
Proof.
  intros H. revert m. induction H as [|b l B H IH]; intros [|c m] M L E; cbn [length] in L; try discriminate; [reflexivity |]. inversion_clear M as [|? ? C M']. cbn [le_value] in E. unfold is_byte in *.
  assert (b = c) by lia. assert (le_value l = le_value m) by lia. subst. f_equal. apply IH; auto.
Qed.
Lemma le32_le_value l : bytes_ok l -> length l = 32%nat -> le32 (le_value l) = l.
Proof.
  intros H L. apply le_value_inj; [apply le32_bytes | exact H | rewrite le32_length; auto |]. apply le_value_le32. pose proof (le_value_range _ H) as R. rewrite L in R. exact R.
Qed.
