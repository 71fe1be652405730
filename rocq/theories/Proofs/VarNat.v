(** VariableNatEncode and VariableNatDecode (pointer.go). *)
From Verif.Model Require Import Base Bech32 Address.
From Verif.Spec Require Import VarNatSpec.
From Verif.Proofs Require Import Util.

Lemma value128_acc l : forall a, fold_left (fun a b => a * 128 + b mod 128) l a = a * 128 ^ zlen l + value128 l.
Proof.
  unfold value128. induction l as [| x l IH]; intros a; cbn [fold_left].
  - unfold zlen. cbn. lia.
  - rewrite IH, (IH (0 * 128 + x mod 128)), zlen_cons, Z.pow_add_r by (pose proof (zlen_nonneg l); lia). lia.
Qed.
Lemma value128_app a b : value128 (a ++ b) = value128 a * 128 ^ zlen b + value128 b.
Proof. unfold value128 at 1. rewrite fold_left_app. apply value128_acc. Qed.
Lemma value128_snoc l x : value128 (l ++ [x]) = value128 l * 128 + x mod 128.
Proof. rewrite value128_app. unfold value128 at 2, zlen. cbn [fold_left length]. change (128 ^ Z.of_nat 1) with 128. lia. Qed.
Lemma value128_cons x l : value128 (x :: l) = x mod 128 * 128 ^ zlen l + value128 l.
Proof. unfold value128 at 1. cbn [fold_left]. rewrite value128_acc. lia. Qed.
Lemma value128_range l : 0 <= value128 l < 128 ^ zlen l.
Proof.
  induction l as [| x l IH] using rev_ind; [unfold value128, zlen; cbn; lia |].
  rewrite value128_snoc, zlen_app. unfold zlen at 2. cbn [length].
  rewrite Z.pow_add_r by (pose proof (zlen_nonneg l); lia). change (128 ^ Z.of_nat 1) with 128.
  pose proof (Z.mod_pos_bound x 128 ltac:(lia)). nia.
Qed.

(** ** Encoding *)
Fixpoint hi (f : nat) (m : Z) : bytes :=
  match f with O => [] | S f' => if 0 <? m then hi f' (m / 128) ++ [m mod 128 + 128] else [] end.

Lemma flag_byte n : 0 <= n -> Z.lor (Z.land (u8 n) 127) 128 = n mod 128 + 128.
Proof.
  intros. change 127 with (2 ^ 7 - 1). rewrite land_ones_mod by lia. unfold u8.
  rewrite mod_mod_pow by lia. change (2 ^ 7) with 128.
  pose proof (Z.mod_pos_bound n 128 ltac:(lia)).
  rewrite Z.lor_comm. rewrite (lor_disjoint 128 (n mod 128) 7); try lia. reflexivity.
Qed.
Lemma low_byte n : Z.land (u8 n) 127 = n mod 128.
Proof. change 127 with (2 ^ 7 - 1). rewrite land_ones_mod by lia. unfold u8. rewrite mod_mod_pow by lia. reflexivity. Qed.

Lemma varnat_loop_hi f : forall m out, 0 <= m -> rev (varnat_loop f m out) = hi f m ++ rev out.
Proof.
  induction f as [| f IH]; intros m out Hm; [reflexivity |]. cbn [varnat_loop hi].
  destruct (Z.ltb_spec 0 m); [| reflexivity].
  rewrite IH by (apply Z.div_pos; lia). rewrite rev_app_distr, flag_byte by lia.
  cbn [rev app]. rewrite <- app_assoc. reflexivity.
Qed.

Lemma encode_hi n : 0 <= n -> VariableNatEncode n = hi 10 (n / 128) ++ [n mod 128].
Proof.
  intros. unfold VariableNatEncode. rewrite varnat_loop_hi by (apply Z.div_pos; lia). rewrite low_byte. reflexivity.
Qed.

Lemma hi_spec f : forall m, 0 <= m < 128 ^ Z.of_nat f ->
  (forall b, In b (hi f m) -> 128 <= b < 256) /\ value128 (hi f m) = m /\
  (hi f m = [] \/ nth 0 (hi f m) 0 <> 128) /\ (length (hi f m) <= f)%nat.
Proof.
  induction f as [| f IH]; intros m Hm.
  - cbn in *. repeat split; auto; try contradiction; try lia.
  - cbn [hi]. destruct (Z.ltb_spec 0 m).
    + assert (Hq : 0 <= m / 128 < 128 ^ Z.of_nat f).
      { rewrite Nat2Z.inj_succ, Z.pow_succ_r in Hm by lia. split; [apply Z.div_pos; lia |].
        apply Z.div_lt_upper_bound; lia. }
      destruct (IH _ Hq) as (A & B & C & D). pose proof (Z.mod_pos_bound m 128 ltac:(lia)).
      split; [| split; [| split]].
      * intros b I. apply in_app_or in I as [I | [<- | []]]; [apply A; auto | lia].
      * rewrite value128_snoc, B. replace ((m mod 128 + 128) mod 128) with (m mod 128).
        -- pose proof (Z.div_mod m 128 ltac:(lia)). lia.
        -- replace (m mod 128 + 128) with (m mod 128 + 1 * 128) by lia. rewrite Z_mod_plus_full.
           symmetry. apply Z.mod_mod. lia.
      * right. destruct (hi f (m / 128)) as [| h t] eqn:E.
        -- unfold value128 in B. cbn in B. cbn.
           pose proof (Z.div_mod m 128 ltac:(lia)). lia.
        -- destruct C as [C | C]; [discriminate |]. exact C.
      * rewrite app_length. cbn. lia.
    + assert (m = 0) by lia. subst. repeat split; auto; try contradiction. cbn. lia.
Qed.

Lemma encode_item n : 0 <= n < 2 ^ 64 ->
  item128 (VariableNatEncode n) /\ value128 (VariableNatEncode n) = n /\
  minimal128 (VariableNatEncode n) /\ (1 <= length (VariableNatEncode n) <= 10)%nat.
Proof.
  intros Hn. rewrite encode_hi by lia.
  assert (Hq : 0 <= n / 128 < 128 ^ Z.of_nat 9).
  { split; [apply Z.div_pos; lia |]. apply Z.div_lt_upper_bound; [lia |]. change (128 ^ Z.of_nat 9) with (2 ^ 63). lia. }
  assert (E : hi 10 (n / 128) = hi 9 (n / 128)).
  { generalize dependent (n / 128). clear. intros m.
    assert (G : forall f m, 0 <= m < 128 ^ Z.of_nat f -> hi (S f) m = hi f m).
    { clear. induction f as [| f IH]; intros m Hm.
      - cbn in *. replace (0 <? m) with false by lia. reflexivity.
      - cbn [hi]. destruct (Z.ltb_spec 0 m); auto. f_equal. apply (IH (m / 128)).
        rewrite Nat2Z.inj_succ, Z.pow_succ_r in Hm by lia. split; [apply Z.div_pos; lia |].
        apply Z.div_lt_upper_bound; lia. }
    apply G. }
  rewrite E. destruct (hi_spec 9 _ Hq) as (A & B & C & D).
  pose proof (Z.mod_pos_bound n 128 ltac:(lia)).
  split; [| split; [| split]].
  - exists (hi 9 (n / 128)), (n mod 128). auto.
  - rewrite value128_snoc, B. rewrite Z.mod_mod by lia. pose proof (Z.div_mod n 128 ltac:(lia)). lia.
  - destruct (hi 9 (n / 128)) as [| h t]; [left; reflexivity |].
    destruct C as [C | C]; [discriminate |]. right. exact C.
  - rewrite app_length. cbn [length]. lia.
Qed.

Lemma encode_bytes_ok n : 0 <= n < 2 ^ 64 -> bytes_ok (VariableNatEncode n).
Proof.
  intros H. destruct (encode_item n H) as ((g & x & E & G & X) & _). rewrite E. apply Forall_app. split.
  - apply Forall_forall. intros b Hb. apply G in Hb. unfold is_byte. lia.
  - constructor; [unfold is_byte; lia | constructor].
Qed.

(** ** Decoding *)
Lemma land_128_zero b : 0 <= b < 256 -> (Z.land b 128 =? 0) = (b <? 128).
Proof.
  intros Hb. assert (S : forallb (fun b => Bool.eqb (Z.land b 128 =? 0) (b <? 128)) (zrange 256) = true) by (vm_compute; reflexivity).
  apply (sweep 256 _ S) in Hb. apply eqb_prop in Hb. exact Hb.
Qed.

Lemma decode_step out b : 0 <= out -> Z.lor (u64 (Z.shiftl out 7)) (Z.land b 127) = u64 (out * 128 + b mod 128).
Proof.
  intros Ho. rewrite Z.shiftl_mul_pow2 by lia. unfold u64. change 127 with (2 ^ 7 - 1).
  rewrite land_ones_mod by lia. change (2 ^ 64) with (2 ^ (7 + 57)).
  rewrite mul_pow_mod by lia. rewrite lor_add by (try lia; apply Z.mod_pos_bound; lia).
  rewrite mod_split by lia. change (2 ^ 7) with 128.
  pose proof (Z.mod_pos_bound b 128 ltac:(lia)).
  rewrite Z.div_add_l by lia. rewrite (Z.div_small (b mod 128)) by lia. rewrite Z.add_0_r.
  f_equal. rewrite Z.add_comm, Z_mod_plus_full. symmetry. apply Z.mod_mod. lia.
Qed.

Lemma u64_step a c : 0 <= c < 128 -> u64 (u64 a * 128 + c) = u64 (a * 128 + c).
Proof.
  intros. unfold u64. rewrite <- (Zplus_mod_idemp_l (a mod _ * 128)), Zmult_mod_idemp_l, Zplus_mod_idemp_l. reflexivity.
Qed.

Lemma decode_loop_spec raw : forall out cnt, bytes_ok raw -> 0 <= out ->
  (varnat_decode_loop raw (u64 out) cnt = Err EVarNat /\ (forall b, In b raw -> 128 <= b)) \/
  exists l r, raw = l ++ r /\ item128 l /\
    varnat_decode_loop raw (u64 out) cnt = Ok (u64 (out * 128 ^ zlen l + value128 l), cnt + zlen l).
Proof.
  induction raw as [| b raw IH]; intros out cnt Hb Ho.
  - left. split; [reflexivity | intros ? []].
  - inversion Hb; subst. cbn [varnat_decode_loop].
    rewrite decode_step, u64_step, land_128_zero by (auto; try apply Z.mod_pos_bound; try apply u64_range; lia).
    pose proof (Z.mod_pos_bound b 128 ltac:(lia)).
    destruct (Z.ltb_spec b 128) as [Lt | Ge].
    + right. exists [b], raw. split; [reflexivity |]. split.
      * exists [], b. split; [reflexivity |]. split; [intros ? [] | destruct H1; lia].
      * unfold zlen, value128. cbn [length fold_left]. change (128 ^ Z.of_nat 1) with 128. do 3 f_equal; lia.
    + destruct (IH (out * 128 + b mod 128) (cnt + 1) H2 ltac:(lia)) as [[E A] | (l & r & -> & (g & x & El & G & X) & E)].
      * left. split; auto. intros c [<- | I]; auto.
      * right. exists (b :: l), r. split; [reflexivity |]. split.
        -- exists (b :: g), x. subst l. split; [reflexivity |]. split; auto. intros c [<- | I]; [destruct H1; lia | auto].
        -- rewrite E. rewrite value128_cons, zlen_cons, Z.pow_add_r by (pose proof (zlen_nonneg l); lia).
           do 2 f_equal; [f_equal; lia | lia].
Qed.

(** Exactly when decoding fails, and what it returns otherwise. *)
Lemma decode_spec raw : bytes_ok raw ->
  (VariableNatDecode raw = Err EVarNat /\ (forall b, In b raw -> 128 <= b)) \/
  exists l r, raw = l ++ r /\ item128 l /\ VariableNatDecode raw = Ok (u64 (value128 l), zlen l).
Proof.
  intros H. destruct (decode_loop_spec raw 0 0 H ltac:(lia)) as [A | (l & r & E & I & D)]; [left; exact A |].
  right. exists l, r. split; auto. 
Qed.

Lemma item128_prefix l r l' r' : item128 l -> item128 l' -> l ++ r = l' ++ r' -> l = l' /\ r = r'.
Proof.
  intros (g & x & -> & G & X) (g' & x' & -> & G' & X'). revert g' G'. induction g as [| y g IH]; intros g' G' E.
  - destruct g' as [| y' g']; cbn in E; injection E as E1 E2; subst; auto.
    exfalso. pose proof (G' y' (or_introl eq_refl)). lia.
  - destruct g' as [| y' g']; cbn in E; injection E as E1 E2; subst.
    + exfalso. pose proof (G x' (or_introl eq_refl)). lia.
    + destruct (IH (fun b I => G b (or_intror I)) g' (fun b I => G' b (or_intror I)) E2) as [E3 E4].
      split; auto. cbn. f_equal. exact E3.
Qed.

Lemma item128_not_err l r : item128 l -> ~ (forall b, In b (l ++ r) -> 128 <= b).
Proof.
  intros (g & x & -> & G & X) H. specialize (H x). rewrite !in_app_iff in H. cbn in H. lia.
Qed.

Lemma decode_item l r : item128 l -> bytes_ok r -> VariableNatDecode (l ++ r) = Ok (u64 (value128 l), zlen l).
Proof.
  intros I Hr.
  assert (B : bytes_ok (l ++ r)).
  { apply Forall_app. split; auto. destruct I as (g & x & -> & G & X). apply Forall_app. split.
    - apply Forall_forall. intros b Hb. apply G in Hb. unfold is_byte. lia.
    - constructor; [unfold is_byte; lia | constructor]. }
  destruct (decode_spec _ B) as [[_ A] | (l' & r' & E & I' & D)].
  - exfalso. eapply item128_not_err; eauto.
  - apply item128_prefix in E as [-> _]; auto.
Qed.

Lemma varnat_roundtrip n r : 0 <= n < 2 ^ 64 -> bytes_ok r ->
  VariableNatDecode (VariableNatEncode n ++ r) = Ok (n, zlen (VariableNatEncode n)).
Proof.
  intros Hn Hr. destruct (encode_item n Hn) as (I & V & _). rewrite decode_item by auto.
  rewrite V, u64_id by lia. reflexivity.
Qed.

(** Re-encoding gives back the bytes exactly when they are minimal and the value fits. *)
Lemma value128_inj l l' : item128 l -> item128 l' -> length l = length l' -> value128 l = value128 l' -> l = l'.
Proof.
  intros (g & x & -> & G & X) (g' & x' & -> & G' & X') L E.
  rewrite !app_length in L. cbn in L. rewrite !value128_snoc in E.
  rewrite (Z.mod_small x), (Z.mod_small x') in E by lia.
  assert (x = x' /\ value128 g = value128 g') as [-> E2] by lia.
  f_equal. clear E X X'. assert (Lg : length g = length g') by lia. clear L. revert g' G' Lg E2.
  induction g as [| y g IH] using rev_ind; intros g' G' Lg E.
  - destruct g'; [reflexivity | discriminate].
  - destruct g' as [| y' g'] using rev_ind; [rewrite app_length in Lg; cbn in Lg; lia |]. clear IHg'.
    rewrite !app_length in Lg. cbn in Lg. rewrite !value128_snoc in E.
    pose proof (G y ltac:(apply in_or_app; right; left; auto)).
    pose proof (G' y' ltac:(apply in_or_app; right; left; auto)).
    pose proof (Z.mod_pos_bound y 128 ltac:(lia)). pose proof (Z.mod_pos_bound y' 128 ltac:(lia)).
    assert (y mod 128 = y' mod 128 /\ value128 g = value128 g') as [E1 E2] by lia.
    assert (y = y').
    { pose proof (Z.div_mod y 128 ltac:(lia)). pose proof (Z.div_mod y' 128 ltac:(lia)).
      assert (y / 128 = 1) by (symmetry; apply Z.div_unique with (y - 128); lia).
      assert (y' / 128 = 1) by (symmetry; apply Z.div_unique with (y' - 128); lia). lia. }
    subst. f_equal. apply IH; auto; try lia.
    + intros b Hb. apply G. apply in_or_app; auto.
    + intros b Hb. apply G'. apply in_or_app; auto.
Qed.

Lemma minimal_lower l : item128 l -> minimal128 l -> length l = 1%nat \/ 128 ^ (zlen l - 1) <= value128 l.
Proof.
  intros (g & x & -> & G & X) [M | M]; [left; auto |].
  destruct g as [| y g]; [left; reflexivity |]. right. cbn in M.
  pose proof (G y (or_introl eq_refl)). cbn [app]. rewrite value128_cons, zlen_cons.
  pose proof (value128_range (g ++ [x])). pose proof (zlen_nonneg (g ++ [x])).
  replace (1 + zlen (g ++ [x]) - 1) with (zlen (g ++ [x])) by lia.
  assert (1 <= y mod 128).
  { replace y with (y - 128 + 1 * 128) by lia. rewrite Z_mod_plus_full, Z.mod_small by lia. lia. }
  assert (0 < 128 ^ zlen (g ++ [x])) by (apply Z.pow_pos_nonneg; lia). nia.
Qed.

Lemma minimal_length l l' : item128 l -> minimal128 l -> item128 l' -> value128 l = value128 l' ->
  (length l <= length l')%nat.
Proof.
  intros I M I' E. pose proof (minimal_lower l I M) as [L | L].
  - destruct I' as (g & x & -> & _). rewrite app_length. cbn. lia.
  - pose proof (value128_range l'). rewrite E in L.
    assert (128 ^ (zlen l - 1) < 128 ^ zlen l') by lia.
    apply Z.pow_lt_mono_r_iff in H0; [| lia | apply zlen_nonneg]. unfold zlen in *. lia.
Qed.

Lemma reencode l : item128 l -> (VariableNatEncode (u64 (value128 l)) = l <-> minimal128 l /\ value128 l < 2 ^ 64).
Proof.
  intros I. pose proof (value128_range l) as R. pose proof (u64_range (value128 l)) as UR.
  destruct (encode_item (u64 (value128 l)) ltac:(lia)) as (I' & V' & M' & _).
  split.
  - intros E. rewrite E in *. split; auto. lia.
  - intros [M Lt]. rewrite u64_id in * by lia. symmetry in V'.
    apply value128_inj; auto.
    apply Nat.le_antisymm; apply minimal_length; auto.
Qed.
