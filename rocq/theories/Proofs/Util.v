(** Arithmetic and list lemmas used everywhere. *)
From Verif.Model Require Import Base.

(** Solve goals about literal powers of two. *)
Ltac pows := change (2 ^ 0) with 1 in *; change (2 ^ 1) with 2 in *; change (2 ^ 2) with 4 in *; change (2 ^ 3) with 8 in *; change (2 ^ 4) with 16 in *;
  change (2 ^ 5) with 32 in *; change (2 ^ 6) with 64 in *; change (2 ^ 7) with 128 in *; change (2 ^ 8) with 256 in *;
  change (2 ^ 16) with 65536 in *; change (2 ^ 32) with 4294967296 in *;
  change (2 ^ 31) with 2147483648 in *;
  change (2 ^ 63) with 9223372036854775808 in *;
  change (2 ^ 64) with 18446744073709551616 in *.

Lemma u8_id x : 0 <= x < 256 -> u8 x = x.
Proof. unfold u8. intros. apply Z.mod_small. pows. lia. Qed.
Lemma u16_id x : 0 <= x < 65536 -> u16 x = x.
Proof. unfold u16. intros. apply Z.mod_small. pows. lia. Qed.
Lemma u32_id x : 0 <= x < 4294967296 -> u32 x = x.
Proof. unfold u32. intros. apply Z.mod_small. pows. lia. Qed.
Lemma u64_id x : 0 <= x < 18446744073709551616 -> u64 x = x.
Proof. unfold u64. intros. apply Z.mod_small. pows. lia. Qed.
Lemma u64_range x : 0 <= u64 x < 18446744073709551616.
Proof. unfold u64. pows. apply Z.mod_pos_bound. lia. Qed.

Lemma land_ones_mod x n : 0 <= n -> Z.land x (2 ^ n - 1) = x mod 2 ^ n.
Proof.
  intros. replace (2 ^ n - 1) with (Z.ones n).
  - apply Z.land_ones; lia.
  - rewrite Z.ones_equiv. lia.
Qed.

(** Disjoint bits: a multiple of 2^n or-ed with a value below 2^n. *)
Lemma lor_add a b n : 0 <= n -> 0 <= b < 2 ^ n -> Z.lor (a * 2 ^ n) b = a * 2 ^ n + b.
Proof.
  intros Hn Hb.
  assert (Z.land (a * 2 ^ n) b = 0).
  { apply Z.bits_inj'. intros i Hi. rewrite Z.land_spec, Z.bits_0.
    destruct (Z.lt_ge_cases i n).
    - rewrite Z.mul_pow2_bits_low by lia. reflexivity.
    - replace b with (b mod 2 ^ n) by (apply Z.mod_small; lia).
      rewrite (Z.mod_pow2_bits_high b n i) by lia. apply andb_false_r. }
  rewrite <- Z.lxor_lor by assumption. symmetry. apply Z.add_nocarry_lxor. assumption.
Qed.

Lemma lor_disjoint a b n : 0 <= n -> 0 <= b < 2 ^ n -> a mod 2 ^ n = 0 -> Z.lor a b = a + b.
Proof.
  intros Hn Hb Ha.
  assert (0 < 2 ^ n) by (apply Z.pow_pos_nonneg; lia).
  apply Z.mod_divide in Ha; [| lia]. destruct Ha as [q ->]. apply lor_add; lia.
Qed.

Lemma mod_mod_pow x a b : 0 <= b <= a -> (x mod 2 ^ a) mod 2 ^ b = x mod 2 ^ b.
Proof.
  intros. replace a with (b + (a - b)) by lia. rewrite Z.pow_add_r by lia.
  rewrite Z.rem_mul_r by (apply Z.pow_nonzero || apply Z.pow_pos_nonneg; lia).
  rewrite Z.mul_comm, Z_mod_plus_full. apply Z.mod_mod. apply Z.pow_nonzero; lia.
Qed.

Lemma mod_split x a b : 0 <= a -> 0 <= b ->
  x mod 2 ^ (a + b) = (x / 2 ^ a) mod 2 ^ b * 2 ^ a + x mod 2 ^ a.
Proof.
  intros. rewrite Z.pow_add_r by lia.
  rewrite Z.rem_mul_r by (apply Z.pow_nonzero || apply Z.pow_pos_nonneg; lia). lia.
Qed.

Lemma mul_pow_mod x a b : 0 <= a -> 0 <= b -> (x * 2 ^ a) mod 2 ^ (a + b) = x mod 2 ^ b * 2 ^ a.
Proof.
  intros. rewrite Z.pow_add_r by lia. rewrite (Z.mul_comm (2 ^ a)).
  rewrite Z.mul_mod_distr_r; auto; apply Z.pow_nonzero; lia.
Qed.

(** Big-endian value of a list of digits in base [b]. *)
Definition bev (b : Z) (l : list Z) : Z := fold_left (fun a d => a * b + d) l 0.

Lemma bev_acc b l a : fold_left (fun a d => a * b + d) l a = a * b ^ zlen l + bev b l.
Proof.
  unfold bev, zlen. revert a. induction l as [| x l IH]; intros; cbn [fold_left length].
  - rewrite Z.pow_0_r. lia.
  - rewrite IH. rewrite (IH (0 * b + x)). rewrite Nat2Z.inj_succ, Z.pow_succ_r by lia. ring.
Qed.

Lemma bev_app b l1 l2 : bev b (l1 ++ l2) = bev b l1 * b ^ zlen l2 + bev b l2.
Proof. unfold bev at 1. rewrite fold_left_app. rewrite bev_acc. reflexivity. Qed.

Lemma bev_snoc b l x : bev b (l ++ [x]) = bev b l * b + x.
Proof. rewrite bev_app. unfold zlen. cbn. lia. Qed.

Lemma bev_cons b x l : bev b (x :: l) = x * b ^ zlen l + bev b l.
Proof. unfold bev. cbn [fold_left]. rewrite bev_acc. unfold bev. lia. Qed.

Lemma bev_range b l : 0 < b -> Forall (fun d => 0 <= d < b) l -> 0 <= bev b l < b ^ zlen l.
Proof.
  intros Hb H. induction l as [| x l IH] using rev_ind.
  - unfold bev, zlen. cbn. lia.
  - apply Forall_app in H as [H1 H2]. apply IH in H1. inversion H2; subst.
    rewrite bev_snoc. unfold zlen in *. rewrite app_length, Nat.add_1_r, Nat2Z.inj_succ, Z.pow_succ_r by lia.
    nia.
Qed.

(** Digits of a given number are unique once the length is fixed. *)
Lemma bev_inj b l1 l2 : 1 < b -> length l1 = length l2 ->
  Forall (fun d => 0 <= d < b) l1 -> Forall (fun d => 0 <= d < b) l2 ->
  bev b l1 = bev b l2 -> l1 = l2.
Proof.
  intros Hb. revert l2. induction l1 as [| x l1 IH] using rev_ind; intros l2 Hlen H1 H2 E.
  - destruct l2; [reflexivity | discriminate].
  - destruct l2 as [| y l2 _] using rev_ind.
    { rewrite app_length in Hlen. cbn in Hlen. lia. }
    rewrite !app_length in Hlen. cbn in Hlen.
    apply Forall_app in H1 as [H1 Hx]. apply Forall_app in H2 as [H2 Hy].
    inversion Hx; subst. inversion Hy; subst.
    rewrite !bev_snoc in E.
    assert (bev b l1 = bev b l2 /\ x = y) as [E' ->]
      by (apply (Z.div_mod_unique b); lia).
    f_equal. apply IH; auto. lia.
Qed.

Lemma zlen_app {A} (a b : list A) : zlen (a ++ b) = zlen a + zlen b.
Proof. unfold zlen. rewrite app_length. lia. Qed.
Lemma zlen_cons {A} (a : A) l : zlen (a :: l) = 1 + zlen l.
Proof. unfold zlen. cbn [length]. lia. Qed.
Lemma zlen_nonneg {A} (l : list A) : 0 <= zlen l.
Proof. unfold zlen. lia. Qed.

Lemma bytes_ok_app a b : bytes_ok (a ++ b) <-> bytes_ok a /\ bytes_ok b.
Proof. apply Forall_app. Qed.

Lemma bind_ok {A B} (r : result A) (f : A -> result B) b :
  bind r f = Ok b -> exists a, r = Ok a /\ f a = Ok b.
Proof. destruct r; cbn; intros; try discriminate. eauto. Qed.

(** Finite sweeps over 0..n-1. *)
Definition zrange (n : nat) : list Z := map Z.of_nat (seq 0 n).
Lemma zrange_in n x : 0 <= x < Z.of_nat n -> In x (zrange n).
Proof.
  intros. unfold zrange. apply in_map_iff. exists (Z.to_nat x). split; [lia |].
  apply in_seq. lia.
Qed.
Lemma sweep (n : nat) (P : Z -> bool) : forallb P (zrange n) = true ->
  forall x, 0 <= x < Z.of_nat n -> P x = true.
Proof. intros H x Hx. rewrite forallb_forall in H. apply H. apply zrange_in; auto. Qed.

Lemma nth_error_app_last {A} (l : list A) x : nth_error (l ++ [x]) (length l) = Some x.
Proof. rewrite nth_error_app2, Nat.sub_diag; auto. Qed.

Lemma slice_ok {A} (a b c : list A) :
  slice (a ++ b ++ c) (length a) (length a + length b) = Ok b.
Proof.
  unfold slice.
  replace ((length a <=? length a + length b)%nat) with true by (symmetry; apply Nat.leb_le; lia).
  replace ((length a + length b <=? length (a ++ b ++ c))%nat) with true
    by (symmetry; apply Nat.leb_le; rewrite !app_length; lia).
  cbn. f_equal. rewrite skipn_app, skipn_all, Nat.sub_diag. cbn.
  replace (length a + length b - length a)%nat with (length b) by lia.
  rewrite firstn_app, Nat.sub_diag, firstn_all. cbn. apply app_nil_r.
Qed.

Lemma app_inj_len {A} (a b c d : list A) : length a = length c -> a ++ b = c ++ d -> a = c /\ b = d.
Proof.
  revert c. induction a as [| x a IH]; intros [| y c] L E; try discriminate; auto.
  cbn in E. injection E as -> E. destruct (IH c ltac:(auto) E). subst. auto.
Qed.

Lemma Forall_firstn' {A} (P : A -> Prop) n l : Forall P l -> Forall P (firstn n l).
Proof. intros H. rewrite <- (firstn_skipn n l) in H. apply Forall_app in H. tauto. Qed.
Lemma Forall_skipn' {A} (P : A -> Prop) n l : Forall P l -> Forall P (skipn n l).
Proof. intros H. rewrite <- (firstn_skipn n l) in H. apply Forall_app in H. tauto. Qed.

Lemma skipn_skipn_add {A} n m (l : list A) : skipn m (skipn n l) = skipn (n + m) l.
Proof.
  revert l. induction n as [| n IH]; intros l; [reflexivity |].
  destruct l; [rewrite !skipn_nil; reflexivity | apply IH].
Qed.
