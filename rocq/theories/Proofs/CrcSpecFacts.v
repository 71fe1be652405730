(** The model's CRC is the polynomial remainder. *)
From Verif.Model Require Import Base Crc32.
From Verif.Spec Require Import CrcSpec.
From Verif.Proofs Require Import Util CrcFacts.

Definition mstep (c : Z) (b : bool) : Z := crc_bit (Z.lxor c (Z.b2z b)).

Lemma even_lxor (b : bool) y : 0 <= y -> Z.b2z b + 2 * y = Z.lxor (Z.b2z b) (2 * y).
Proof.
  intros Hy. symmetry. rewrite Z.lxor_comm, Z.lxor_lor.
  - replace (2 * y) with (y * 2 ^ 1) by lia. rewrite lor_add; [lia | lia | destruct b; cbn; lia].
  - apply Z.bits_inj'. intros n Hn. rewrite Z.land_spec, Z.bits_0.
    destruct (Z.eq_dec n 0) as [-> |]; [rewrite Z.testbit_even_0; reflexivity |].
    replace (Z.testbit (Z.b2z b) n) with false; [apply andb_false_r |]. symmetry.
    destruct b; cbn [Z.b2z]; [| apply Z.bits_0]. apply Z.bits_above_log2; cbn; lia.
Qed.

Lemma feed_bit c (b : bool) y : 0 <= y -> crc_bit (Z.lxor c (Z.b2z b + 2 * y)) = Z.lxor (mstep c b) y.
Proof. intros Hy. rewrite even_lxor by auto. rewrite <- Z.lxor_assoc, crc_bit_lxor, crc_bit_even. reflexivity. Qed.

Lemma byte_bits b : is_byte b -> b = Z.b2z (Z.testbit b 0) + 2 * (Z.b2z (Z.testbit b 1) + 2 * (Z.b2z (Z.testbit b 2) + 2 * (Z.b2z (Z.testbit b 3)
  + 2 * (Z.b2z (Z.testbit b 4) + 2 * (Z.b2z (Z.testbit b 5) + 2 * (Z.b2z (Z.testbit b 6) + 2 * (Z.b2z (Z.testbit b 7) + 2 * 0))))))).
Proof.
  intros H. unfold is_byte in H.
  assert (S : forallb (fun b => b =? Z.b2z (Z.testbit b 0) + 2 * (Z.b2z (Z.testbit b 1) + 2 * (Z.b2z (Z.testbit b 2) + 2 * (Z.b2z (Z.testbit b 3)
    + 2 * (Z.b2z (Z.testbit b 4) + 2 * (Z.b2z (Z.testbit b 5) + 2 * (Z.b2z (Z.testbit b 6) + 2 * (Z.b2z (Z.testbit b 7) + 2 * 0)))))))) (zrange 256) = true) by (vm_compute; reflexivity).
  apply (sweep 256 _ S) in H. apply Z.eqb_eq in H. exact H.
Qed.

Lemma crc_byte_bits c b : is_byte b -> crc_byte c b = fold_left mstep (bits_lsb b) c.
Proof.
  intros H. unfold crc_byte, bits_lsb. rewrite (byte_bits b H) at 1. cbn [map fold_left].
  repeat match goal with |- context [Z.testbit b ?k] => let v := fresh "v" in set (v := Z.testbit b k); clearbody v end.
  assert (B : forall x y, 0 <= y -> 0 <= Z.b2z x + 2 * y) by (intros [] y Hy; unfold Z.b2z; lia).
  change (Nat.iter 8 crc_bit) with (fun x => crc_bit (crc_bit (crc_bit (crc_bit (crc_bit (crc_bit (crc_bit (crc_bit x)))))))). cbn beta.
  do 8 (rewrite feed_bit by (repeat apply B; lia)).
  rewrite Z.lxor_0_r. reflexivity.
Qed.

Lemma crc_bits l : forall c, bytes_ok l -> fold_left crc_byte l c = fold_left mstep (flat_map bits_lsb l) c.
Proof.
  induction l as [| b l IH]; intros c B; [reflexivity |]. inversion B; subst. cbn [fold_left flat_map].
  rewrite fold_left_app, <- crc_byte_bits by auto. apply IH. auto.
Qed.

(** Reflection. *)
Lemma pow_sum_bits s n : (n <= 32)%nat -> forall i, 0 <= i ->
  Z.testbit (fold_left (fun v i => v + (if Z.testbit s i then 2 ^ (31 - i) else 0)) (map Z.of_nat (seq 0 n)) 0) i =
  (32 - Z.of_nat n <=? i) && (i <? 32) && Z.testbit s (31 - i) /\
  exists q, 0 <= q /\ fold_left (fun v i => v + (if Z.testbit s i then 2 ^ (31 - i) else 0)) (map Z.of_nat (seq 0 n)) 0 = q * 2 ^ (32 - Z.of_nat n).
Proof.
  induction n as [| n IH]; intros Hn i Hi.
  - cbn [seq map fold_left]. rewrite Z.bits_0. split; [| exists 0; lia].
    destruct (Z.leb_spec (32 - Z.of_nat 0) i), (Z.ltb_spec i 32); cbn [andb]; auto; lia.
  - rewrite seq_S, map_app, fold_left_app. cbn [map fold_left Nat.add].
    destruct (IH ltac:(lia) i Hi) as [E (q & Hq & Q)].
    set (v := fold_left _ _ 0) in *. rewrite Nat2Z.inj_succ.
    assert (P : 2 ^ (32 - Z.of_nat n) = 2 * 2 ^ (31 - Z.of_nat n)) by (replace (32 - Z.of_nat n) with (Z.succ (31 - Z.of_nat n)) by lia; apply Z.pow_succ_r; lia).
    assert (PP : 0 < 2 ^ (31 - Z.of_nat n)) by (apply Z.pow_pos_nonneg; lia).
    replace (32 - Z.succ (Z.of_nat n)) with (31 - Z.of_nat n) by lia.
    split.
    + destruct (Z.testbit s (Z.of_nat n)) eqn:T.
      * assert (L : v + 2 ^ (31 - Z.of_nat n) = Z.lor v (2 ^ (31 - Z.of_nat n))).
        { rewrite Q. rewrite lor_add; [reflexivity | lia | rewrite P; lia]. }
        rewrite L, Z.lor_spec, E, Z.pow2_bits_eqb by lia.
        destruct (Z.eqb_spec (31 - Z.of_nat n) i) as [<- |].
        -- replace (31 - (31 - Z.of_nat n)) with (Z.of_nat n) by lia. rewrite T.
           destruct (Z.leb_spec (32 - Z.of_nat n) (31 - Z.of_nat n)), (Z.leb_spec (31 - Z.of_nat n) (31 - Z.of_nat n)), (Z.ltb_spec (31 - Z.of_nat n) 32); cbn; auto; lia.
        -- destruct (Z.leb_spec (32 - Z.of_nat n) i), (Z.leb_spec (31 - Z.of_nat n) i); cbn [andb]; try lia; rewrite ?orb_false_r; auto.
      * rewrite Z.add_0_r, E.
        destruct (Z.eqb_spec (31 - Z.of_nat n) i) as [<- |].
        -- replace (31 - (31 - Z.of_nat n)) with (Z.of_nat n) by lia. rewrite T, !andb_false_r. reflexivity.
        -- destruct (Z.leb_spec (32 - Z.of_nat n) i), (Z.leb_spec (31 - Z.of_nat n) i); cbn [andb]; auto; lia.
    + exists (2 * q + (if Z.testbit s (Z.of_nat n) then 1 else 0)). rewrite Q, P. destruct (Z.testbit s (Z.of_nat n)); lia.
Qed.

Lemma reflect32_bits s i : 0 <= i -> Z.testbit (reflect32 s) i = (i <? 32) && Z.testbit s (31 - i).
Proof.
  intros Hi. unfold reflect32. destruct (pow_sum_bits s 32 ltac:(lia) i Hi) as [-> _].
  change (32 - Z.of_nat 32) with 0. destruct (Z.leb_spec 0 i); [reflexivity | lia].
Qed.

Lemma w32_bits c i : w32 c -> 32 <= i -> Z.testbit c i = false.
Proof.
  unfold w32. intros H Hi. destruct (Z.eq_dec c 0) as [-> |]; [apply Z.bits_0 |]. apply Z.bits_above_log2; [lia |].
  apply Z.log2_lt_pow2; [lia |]. apply Z.lt_le_trans with (2 ^ 32); [lia | apply Z.pow_le_mono_r; lia].
Qed.

Lemma reflect32_range s : w32 (reflect32 s).
Proof.
  destruct (pow_sum_bits s 32 ltac:(lia) 0 ltac:(lia)) as [_ (q & Hq & Q)]. 
  assert (Q' : reflect32 s = q * 2 ^ (32 - Z.of_nat 32)) by exact Q. clear Q.
  replace (2 ^ (32 - Z.of_nat 32)) with 1 in Q' by reflexivity.
  assert (0 <= reflect32 s) by lia. unfold w32. split; auto.
  destruct (Z.eq_dec (reflect32 s) 0) as [-> | N]; [lia |]. apply Z.log2_lt_pow2; [lia |].
  destruct (Z.lt_ge_cases (Z.log2 (reflect32 s)) 32) as [| G]; auto.
  pose proof (Z.bit_log2 (reflect32 s) ltac:(lia)) as B. rewrite reflect32_bits in B by lia. 
  destruct (Z.ltb_spec (Z.log2 (reflect32 s)) 32); [lia | discriminate].
Qed.

Lemma reflect32_invol s : w32 s -> reflect32 (reflect32 s) = s.
Proof.
  intros H. apply Z.bits_inj'. intros i Hi. rewrite reflect32_bits by auto.
  destruct (Z.ltb_spec i 32); cbn [andb].
  - rewrite reflect32_bits by lia. replace (31 - (31 - i)) with i by lia. destruct (Z.ltb_spec (31 - i) 32); [reflexivity | lia].
  - symmetry. apply w32_bits; auto.
Qed.

Lemma poly_reflect i : 0 <= i < 32 -> Z.testbit generator (31 - i) = Z.testbit 0xEDB88320 i.
Proof.
  intros H. assert (S : forallb (fun i => Bool.eqb (Z.testbit generator (31 - i)) (Z.testbit 0xEDB88320 i)) (zrange 32) = true) by (vm_compute; reflexivity).
  apply (sweep 32 _ S) in H. apply eqb_prop in H. exact H.
Qed.

Lemma b2z_bit (b : bool) i : 0 <= i -> Z.testbit (Z.b2z b) i = b && (i =? 0).
Proof.
  intros Hi. destruct (Z.eqb_spec i 0) as [-> | N]; [destruct b; reflexivity |].
  rewrite andb_false_r. destruct b; cbn [Z.b2z]; [apply Z.bits_above_log2; cbn; lia | apply Z.bits_0].
Qed.

Lemma step_reflect s b : w32 s -> reflect32 (crc_step s b) = mstep (reflect32 s) b /\ w32 (crc_step s b).
Proof.
  intros H. split.
  - unfold crc_step, mstep, crc_bit.
    rewrite <- Z.bit0_odd, Z.lxor_spec, reflect32_bits by lia. cbn [Z.ltb Z.compare andb]. change (31 - 0) with 31.
    rewrite b2z_bit by lia. change (0 =? 0) with true. rewrite andb_true_r.
    set (top := xorb (Z.testbit s 31) b).
    assert (Sh : Z.shiftr (Z.lxor (reflect32 s) (Z.b2z b)) 1 = Z.shiftr (reflect32 s) 1).
    { rewrite Z.shiftr_lxor. replace (Z.shiftr (Z.b2z b) 1) with 0 by (destruct b; reflexivity). apply Z.lxor_0_r. }
    rewrite Sh.
    replace (if top then Z.lxor (Z.shiftr (reflect32 s) 1) 3988292384 else Z.shiftr (reflect32 s) 1)
      with (Z.lxor (Z.shiftr (reflect32 s) 1) (if top then 3988292384 else 0)) by (destruct top; [reflexivity | apply Z.lxor_0_r]).
    clearbody top. apply Z.bits_inj'. intros i Hi. rewrite reflect32_bits, !Z.lxor_spec, Z.shiftr_spec, reflect32_bits by lia.
    destruct (Z.ltb_spec i 32); cbn [andb].
    + f_equal.
      * rewrite Z.mod_pow2_bits_low by lia. replace (31 - i) with (Z.succ (31 - (i + 1))) by lia.
        destruct (Z.ltb_spec (i + 1) 32); cbn [andb].
        -- rewrite Z.double_bits_succ. reflexivity.
        -- replace i with 31 by lia. apply Z.testbit_even_0.
      * destruct top; [apply poly_reflect; lia | rewrite !Z.bits_0; reflexivity].
    + destruct (Z.ltb_spec (i + 1) 32); [lia |]. cbn [andb xorb]. destruct top; [| rewrite Z.bits_0; reflexivity].
      rewrite w32_bits; [reflexivity | unfold w32; lia | lia].
  - unfold crc_step. apply w32_lxor; [apply Z.mod_pos_bound; lia |]. destruct (xorb _ _); [vm_compute; split; [discriminate | reflexivity] | unfold w32; lia].
Qed.

Lemma fold_hom {S T B} (f : S -> B -> S) (g : T -> B -> T) (h : S -> T) (P : S -> Prop) :
  (forall s b, P s -> h (f s b) = g (h s) b /\ P (f s b)) ->
  forall bs s, P s -> fold_left g bs (h s) = h (fold_left f bs s) /\ P (fold_left f bs s).
Proof.
  intros H. induction bs as [| b bs IH]; intros s Ps; cbn [fold_left]; [auto |].
  destruct (H s b Ps) as [E W]. rewrite <- E. apply IH. exact W.
Qed.
Lemma fold_reflect bs : forall s, w32 s -> fold_left mstep bs (reflect32 s) = reflect32 (fold_left crc_step bs s) /\ w32 (fold_left crc_step bs s).
Proof. apply (fold_hom crc_step mstep reflect32 w32 step_reflect). Qed.

Lemma crc32_spec l : bytes_ok l -> crc32 l = crc_spec l.
Proof.
  intros B. unfold crc32, crc_spec. rewrite crc_bits by auto.
  replace 4294967295 with (reflect32 (2 ^ 32 - 1)) at 1 by (vm_compute; reflexivity).
  rewrite (proj1 (fold_reflect _ (2 ^ 32 - 1) ltac:(unfold w32; lia))). reflexivity.
Qed.
