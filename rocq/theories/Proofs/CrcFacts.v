(** CRC-32: range, linearity, detection of error bursts. *)
From Verif.Model Require Import Base Crc32.
From Verif.Proofs Require Import Util.

Definition w32 (x : Z) : Prop := 0 <= x < 2 ^ 32.

Lemma w32_lxor a b : w32 a -> w32 b -> w32 (Z.lxor a b).
Proof.
  unfold w32. intros Ha Hb.
  assert (H : 0 <= Z.lxor a b) by (apply Z.lxor_nonneg; lia).
  split; auto. destruct (Z.eq_dec (Z.lxor a b) 0) as [-> | N]; [lia |].
  apply Z.log2_lt_pow2; [lia |].
  pose proof (Z.log2_lxor a b ltac:(lia) ltac:(lia)).
  assert (L : forall x, 0 <= x < 2 ^ 32 -> Z.log2 x < 32).
  { intros x Hx. destruct (Z.eq_dec x 0) as [-> | ]; [cbn; lia |]. apply Z.log2_lt_pow2; lia. }
  pose proof (L a Ha). pose proof (L b Hb). lia.
Qed.

Lemma w32_bit c : w32 c -> w32 (crc_bit c).
Proof.
  intros H. unfold crc_bit. rewrite Z.shiftr_div_pow2 by lia. change (2 ^ 1) with 2.
  assert (w32 (c / 2)). { unfold w32 in *. split; [apply Z.div_pos; lia |]. apply Z.div_lt_upper_bound; lia. }
  destruct (Z.odd c); auto. apply w32_lxor; auto. unfold w32. lia.
Qed.
Lemma w32_iter n c : w32 c -> w32 (Nat.iter n crc_bit c).
Proof. intros H. induction n; cbn [Nat.iter nat_rect]; auto. apply w32_bit. exact IHn. Qed.
Lemma w32_byte c b : w32 c -> is_byte b -> w32 (crc_byte c b).
Proof. intros H Hb. apply w32_iter, w32_lxor; auto. unfold w32, is_byte in *. lia. Qed.
Lemma w32_fold l : forall c, w32 c -> bytes_ok l -> w32 (fold_left crc_byte l c).
Proof. induction l as [| b l IH]; intros c Hc B; cbn; auto. inversion B; subst. apply IH; auto. apply w32_byte; auto. Qed.
Lemma crc32_range l : bytes_ok l -> 0 <= crc32 l < 2 ^ 32.
Proof. intros B. apply w32_lxor; [apply w32_fold; auto |]; unfold w32; lia. Qed.

(** Linearity. *)
Lemma crc_bit_lxor a b : crc_bit (Z.lxor a b) = Z.lxor (crc_bit a) (crc_bit b).
Proof.
  unfold crc_bit. rewrite Z.shiftr_lxor. rewrite <- !Z.bit0_odd, Z.lxor_spec.
  destruct (Z.testbit a 0), (Z.testbit b 0); cbn [xorb];
    apply Z.bits_inj'; intros n _; rewrite !Z.lxor_spec;
    destruct (Z.testbit (Z.shiftr a 1) n), (Z.testbit (Z.shiftr b 1) n), (Z.testbit 3988292384 n); reflexivity.
Qed.
Lemma iter_lxor n a b : Nat.iter n crc_bit (Z.lxor a b) = Z.lxor (Nat.iter n crc_bit a) (Nat.iter n crc_bit b).
Proof. induction n as [| n IH]; cbn [Nat.iter nat_rect]; auto. unfold Nat.iter in IH. rewrite IH. apply crc_bit_lxor. Qed.
Lemma crc_byte_lxor c d x y : crc_byte (Z.lxor c d) (Z.lxor x y) = Z.lxor (crc_byte c x) (crc_byte d y).
Proof.
  unfold crc_byte. rewrite <- iter_lxor. f_equal.
  rewrite <- !Z.lxor_assoc. f_equal. rewrite !Z.lxor_assoc. f_equal. apply Z.lxor_comm.
Qed.

(** Two equally long inputs, byte by byte. *)
Definition diff (l m : bytes) : bytes := map (fun '(x, y) => Z.lxor x y) (combine l m).
Lemma fold_diff l : forall m c d, length l = length m ->
  Z.lxor (fold_left crc_byte l c) (fold_left crc_byte m d) = fold_left crc_byte (diff l m) (Z.lxor c d).
Proof.
  induction l as [| x l IH]; intros [| y m] c d L; try discriminate; [reflexivity |].
  cbn in L. cbn [diff combine map fold_left]. rewrite crc_byte_lxor. apply IH. lia.
Qed.

(** A nonzero state stays nonzero. *)
Lemma crc_bit_zero c : w32 c -> crc_bit c = 0 -> c = 0.
Proof.
  unfold crc_bit, w32. intros H E. destruct (Z.odd c) eqn:O.
  - apply Z.lxor_eq in E. rewrite Z.shiftr_div_pow2 in E by lia. change (2 ^ 1) with 2 in E.
    pose proof (Z.div_mod c 2 ltac:(lia)). pose proof (Z.mod_pos_bound c 2 ltac:(lia)). lia.
  - rewrite Z.shiftr_div_pow2 in E by lia. change (2 ^ 1) with 2 in E. 
    pose proof (Z.div_mod c 2 ltac:(lia)). rewrite Zmod_odd, O in H0. lia.
Qed.
Lemma iter_zero n c : w32 c -> Nat.iter n crc_bit c = 0 -> c = 0.
Proof.
  intros H. induction n as [| n IH]; intros E; [exact E |]. apply IH. apply crc_bit_zero; auto. apply w32_iter; auto.
Qed.
Lemma fold_zeros k : forall c, w32 c -> fold_left crc_byte (repeat 0 k) c = 0 -> c = 0.
Proof.
  induction k as [| k IH]; intros c H E; cbn [repeat fold_left] in E; auto.
  apply IH in E; [| apply w32_byte; auto; unfold is_byte; lia].
  unfold crc_byte in E. rewrite Z.lxor_0_r in E. apply iter_zero in E; auto.
Qed.

Lemma crc_byte_0 : crc_byte 0 0 = 0.
Proof. reflexivity. Qed.

(** Shifting whole bytes: eight steps on a multiple of 256 just shift. *)
Lemma crc_bit_even c : crc_bit (2 * c) = c.
Proof. unfold crc_bit. replace (Z.odd (2 * c)) with false by (rewrite Z.odd_mul; reflexivity). rewrite Z.shiftr_div_pow2 by lia. change (2 ^ 1) with 2. rewrite Z.mul_comm, Z.div_mul; lia. Qed.
Lemma crc_byte_shift c : Nat.iter 8 crc_bit (256 * c) = c.
Proof.
  cbn [Nat.iter nat_rect].
  replace (256 * c) with (2 * (2 * (2 * (2 * (2 * (2 * (2 * (2 * c)))))))) by lia. rewrite !crc_bit_even. reflexivity.
Qed.

Lemma iter_plus {A} (f : A -> A) n m x : Nat.iter (n + m) f x = Nat.iter n f (Nat.iter m f x).
Proof. induction n as [| n IH]; cbn [Nat.add Nat.iter nat_rect]; auto. f_equal. exact IH. Qed.

(** A word fed as four little-endian bytes into the zero state. *)
Lemma crc_word a b c d : is_byte a -> is_byte b -> is_byte c -> is_byte d ->
  fold_left crc_byte [a; b; c; d] 0 = Nat.iter 32 crc_bit (a + 256 * b + 65536 * c + 16777216 * d).
Proof.
  intros Ha Hb Hc Hd.
  assert (S : forall x y, is_byte x -> 0 <= y -> Nat.iter 8 crc_bit (x + 256 * y) = Z.lxor (Nat.iter 8 crc_bit x) y).
  { intros x y Hx Hy. unfold is_byte in Hx.
    replace (x + 256 * y) with (Z.lxor (256 * y) x).
    - rewrite iter_lxor, crc_byte_shift. apply Z.lxor_comm.
    - rewrite Z.lxor_lor; [rewrite Z.mul_comm; change 256 with (2 ^ 8); rewrite lor_add by lia; lia |].
      apply Z.bits_inj'. intros n Hn. rewrite Z.land_spec, Z.bits_0. rewrite Z.mul_comm. change 256 with (2 ^ 8).
      destruct (Z.ltb_spec n 8); [rewrite Z.mul_pow2_bits_low by lia; reflexivity |].
      rewrite (Z.bits_above_log2 x n); [apply andb_false_r | lia |].
      destruct (Z.eq_dec x 0) as [-> |]; [cbn; lia |]. apply Z.log2_lt_pow2; try lia.
      apply Z.lt_le_trans with (2 ^ 8); [lia | apply Z.pow_le_mono_r; lia]. }
  assert (I : forall x, Nat.iter 32 crc_bit x = Nat.iter 8 crc_bit (Nat.iter 8 crc_bit (Nat.iter 8 crc_bit (Nat.iter 8 crc_bit x)))).
  { intros x. change 32%nat with (8 + (8 + (8 + 8)))%nat. rewrite !iter_plus. reflexivity. }
  rewrite I. cbn [fold_left]. unfold crc_byte. rewrite Z.lxor_0_l. unfold is_byte in *.
  replace (a + 256 * b + 65536 * c + 16777216 * d) with (a + 256 * (b + 256 * (c + 256 * d))) by lia.
  set (g := Nat.iter 8 crc_bit) in *. assert (L : forall x y, g (Z.lxor x y) = Z.lxor (g x) (g y)) by (intros; apply iter_lxor).
  clearbody g. rewrite S by (unfold is_byte; lia). rewrite !L. rewrite (S b) by (unfold is_byte; lia). rewrite !L. rewrite (S c) by (unfold is_byte; lia).
  rewrite !L. rewrite <- !Z.lxor_assoc. reflexivity.
Qed.

Lemma byte_lxor x y : is_byte x -> is_byte y -> is_byte (Z.lxor x y).
Proof.
  unfold is_byte. intros Hx Hy.
  assert (H : forallb (fun x => forallb (fun y => (0 <=? Z.lxor x y) && (Z.lxor x y <? 256)) (zrange 256)) (zrange 256) = true) by (vm_compute; reflexivity).
  apply (sweep 256 _ H) in Hx. apply (sweep 256 _ Hx) in Hy. lia.
Qed.

Lemma diff_app a b c d : length a = length b -> diff (a ++ c) (b ++ d) = diff a b ++ diff c d.
Proof.
  intros L. unfold diff. revert b L. induction a as [| x a IH]; intros [| y b] L; try discriminate; auto.
  cbn in *. f_equal. apply IH. lia.
Qed.
Lemma diff_self a : diff a a = repeat 0 (length a).
Proof. unfold diff. induction a as [| x a IH]; cbn; auto. rewrite Z.lxor_nilpotent, IH. reflexivity. Qed.
Lemma diff_zero a : forall b, length a = length b -> diff a b = repeat 0 (length a) -> a = b.
Proof.
  induction a as [| x a IH]; intros [| y b] L E; try discriminate; auto. cbn in *. injection E as E1 E2.
  apply Z.lxor_eq in E1. subst. f_equal. apply IH; auto.
Qed.
Lemma diff_bytes a : forall b, bytes_ok a -> bytes_ok b -> bytes_ok (diff a b).
Proof.
  induction a as [| x a IH]; intros [| y b] Ha Hb; cbn; try constructor.
  - inversion Ha; inversion Hb; subst. apply byte_lxor; auto.
  - inversion Ha; inversion Hb; subst. apply IH; auto.
Qed.
Lemma diff_length a b : length a = length b -> length (diff a b) = length a.
Proof. intros. unfold diff. rewrite map_length, combine_length. lia. Qed.

Lemma fold_zero_state k : fold_left crc_byte (repeat 0 k) 0 = 0.
Proof. induction k; cbn [repeat fold_left]; auto. Qed.

(** At most four consecutive bytes changed: a different checksum. *)
Lemma crc_burst p u v s : bytes_ok p -> bytes_ok u -> bytes_ok v -> bytes_ok s -> length u = length v -> (length u <= 4)%nat ->
  crc32 (p ++ u ++ s) = crc32 (p ++ v ++ s) -> u = v.
Proof.
  intros Bp Bu Bv Bs L L4 E.
  assert (F : fold_left crc_byte (diff (p ++ u ++ s) (p ++ v ++ s)) 0 = 0).
  { rewrite <- (Z.lxor_nilpotent 4294967295) at 1. rewrite <- fold_diff by (rewrite !app_length; lia).
    unfold crc32 in E. apply Z.lxor_eq_0_iff.
    apply (f_equal (fun x => Z.lxor x 4294967295)) in E. rewrite !Z.lxor_assoc, Z.lxor_nilpotent, !Z.lxor_0_r in E. exact E. }
  rewrite !diff_app, !diff_self, !fold_left_app, fold_zero_state in F by auto.
  apply fold_zeros in F; [| apply w32_fold; [unfold w32; lia | apply diff_bytes; auto]].
  apply diff_zero; auto. rewrite <- (diff_length u v L).
  assert (Bd : bytes_ok (diff u v)) by (apply diff_bytes; auto).
  assert (Ld : (length (diff u v) <= 4)%nat) by (rewrite diff_length; auto).
  clear - F Bd Ld. generalize dependent (diff u v). intros d F B L.
  assert (G : forall a b c e, is_byte a -> is_byte b -> is_byte c -> is_byte e -> fold_left crc_byte [a; b; c; e] 0 = 0 -> a = 0 /\ b = 0 /\ c = 0 /\ e = 0).
  { intros a b c e Ha Hb Hc He Q. rewrite crc_word in Q by auto. apply iter_zero in Q; unfold w32, is_byte in *; lia. }
  assert (P : fold_left crc_byte (d ++ repeat 0 (4 - length d)) 0 = 0) by (rewrite fold_left_app, F; apply fold_zero_state).
  assert (is_byte 0) by (unfold is_byte; lia).
  destruct d as [| a [| b [| c [| e [| ? ?]]]]]; cbn [length Nat.sub repeat app] in P, L |- *; try lia; try reflexivity;
    repeat match goal with H : bytes_ok (_ :: _) |- _ => inversion H; clear H; subst | H : Forall _ (_ :: _) |- _ => inversion H; clear H; subst end;
    apply G in P; auto; destruct P as (? & ? & ? & ?); subst; reflexivity.
Qed.
