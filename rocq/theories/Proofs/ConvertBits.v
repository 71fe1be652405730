(** convertBits (bech32.go:61-87) regroups bits: proofs through big-endian values. *)
From Verif.Model Require Import Base Bech32.
From Verif.Proofs Require Import Util.

Definition grp (w : Z) (l : list Z) : Prop := Forall (fun d => 0 <= d < 2 ^ w) l.

Lemma emit_digit acc k t : 0 <= acc -> 0 <= k -> 0 < t <= 8 ->
  Z.land (u8 (Z.shiftr acc k)) (2 ^ t - 1) = (acc / 2 ^ k) mod 2 ^ t.
Proof.
  intros. rewrite land_ones_mod by lia. rewrite Z.shiftr_div_pow2 by lia.
  unfold u8. apply mod_mod_pow. lia.
Qed.

Lemma emit_spec t : 0 < t <= 8 -> forall fuel acc bits ret,
  0 <= acc -> 0 <= bits < Z.of_nat fuel -> grp t ret ->
  exists bits' ret',
    emit fuel acc bits t (2 ^ t - 1) ret = Ok (bits', ret') /\
    0 <= bits' < t /\ grp t ret' /\
    t * zlen ret' + bits' = t * zlen ret + bits /\
    bev (2 ^ t) ret' * 2 ^ bits' + acc mod 2 ^ bits' = bev (2 ^ t) ret * 2 ^ bits + acc mod 2 ^ bits.
Proof.
  intros Ht. induction fuel as [| f IH]; intros acc bits ret Ha Hb Hr; [lia |].
  cbn [emit]. destruct (Z.leb_spec t bits) as [Hle | Hgt].
  - rewrite emit_digit by lia.
    destruct (IH acc (bits - t) (ret ++ [(acc / 2 ^ (bits - t)) mod 2 ^ t])) as (b' & r' & E & Hb' & Hr' & HL & HV).
    + lia.
    + lia.
    + apply Forall_app. split; [exact Hr |]. constructor; [| constructor].
      apply Z.mod_pos_bound. apply Z.pow_pos_nonneg; lia.
    + exists b', r'. repeat split; try tauto; try lia.
      * rewrite HL, zlen_app. unfold zlen at 2. cbn [length]. lia.
      * rewrite HV, bev_snoc.
        replace bits with ((bits - t) + t) at 4 5 by lia.
        rewrite mod_split by lia. rewrite Z.pow_add_r by lia. ring.
  - exists bits, ret. repeat split; auto; lia.
Qed.

Lemma convert_loop_spec f t : 0 < f <= 8 -> 0 < t <= 8 -> forall data pre acc bits ret,
  grp f data -> 0 <= acc < 2 ^ 32 -> 0 <= bits < t -> grp t ret ->
  t * zlen ret + bits = f * zlen pre ->
  bev (2 ^ t) ret * 2 ^ bits + acc mod 2 ^ bits = bev (2 ^ f) pre ->
  exists acc' bits' ret',
    convert_loop data f t (2 ^ t - 1) acc bits ret = Ok (acc', bits', ret') /\
    0 <= acc' < 2 ^ 32 /\ 0 <= bits' < t /\ grp t ret' /\
    t * zlen ret' + bits' = f * zlen (pre ++ data) /\
    bev (2 ^ t) ret' * 2 ^ bits' + acc' mod 2 ^ bits' = bev (2 ^ f) (pre ++ data).
Proof.
  intros Hf Ht. induction data as [| v data IH]; intros pre acc bits ret Hd Ha Hb Hr HL HV.
  - exists acc, bits, ret. cbn [convert_loop]. rewrite app_nil_r. repeat split; auto; lia.
  - inversion Hd as [| ? ? Hv Hd']; subst. cbn [convert_loop].
    replace (Z.shiftr v f =? 0) with true
      by (symmetry; apply Z.eqb_eq; rewrite Z.shiftr_div_pow2 by lia; apply Z.div_small; lia).
    cbn [negb].
    assert (P32 : 2 ^ 32 = 4294967296) by reflexivity.
    assert (Eacc : Z.lor (u32 (Z.shiftl acc f)) v = (acc * 2 ^ f) mod 2 ^ 32 + v).
    { unfold u32. rewrite Z.shiftl_mul_pow2 by lia. apply (lor_disjoint _ _ f); try lia.
      rewrite mod_mod_pow by lia. apply Z.mod_mul. apply Z.pow_nonzero; lia. }
    assert (Hacc : 0 <= Z.lor (u32 (Z.shiftl acc f)) v < 2 ^ 32).
    { rewrite Eacc.
      assert (Ep : 2 ^ 32 = 2 ^ f * 2 ^ (32 - f)) by (rewrite <- Z.pow_add_r by lia; f_equal; lia).
      assert (Em : (acc * 2 ^ f) mod 2 ^ 32 = acc mod 2 ^ (32 - f) * 2 ^ f).
      { rewrite <- mul_pow_mod by lia. do 2 f_equal. lia. }
      rewrite Em, Ep.
      pose proof (Z.mod_pos_bound acc (2 ^ (32 - f)) ltac:(apply Z.pow_pos_nonneg; lia)). nia. }
    assert (Hmod : Z.lor (u32 (Z.shiftl acc f)) v mod 2 ^ (f + bits) = (acc mod 2 ^ bits) * 2 ^ f + v).
    { rewrite Eacc. rewrite Z.add_mod by (apply Z.pow_nonzero; lia).
      rewrite mod_mod_pow by lia. rewrite mul_pow_mod by lia.
      pose proof (Z.mod_pos_bound acc (2 ^ bits) ltac:(apply Z.pow_pos_nonneg; lia)).
      rewrite (Z.mod_small v) by (rewrite Z.pow_add_r by lia; nia).
      apply Z.mod_small. rewrite Z.pow_add_r by lia. nia. }
    set (acc1 := Z.lor (u32 (Z.shiftl acc f)) v) in *.
    rewrite u8_id by lia.
    destruct (emit_spec t Ht 17 acc1 (bits + f) ret) as (b' & r' & E & Hb' & Hr' & HL' & HV'); try lia; auto.
    rewrite E. cbn [bind].
    destruct (IH (pre ++ [v]) acc1 b' r') as (a2 & b2 & r2 & E2 & H1 & H2 & H3 & H4 & H5); auto.
    + rewrite HL', zlen_app. unfold zlen at 3. cbn [length]. lia.
    + rewrite HV', bev_snoc, <- HV. rewrite (Z.add_comm bits f), Hmod. rewrite Z.pow_add_r by lia. ring.
    + exists a2, b2, r2. rewrite <- app_assoc in H4, H5. cbn [app] in H4, H5. repeat split; auto; try lia.
Qed.

Lemma convert_loop_range f t maxv : 0 < f <= 8 -> forall data acc bits ret,
  ~ grp f data -> Forall (fun v => 0 <= v) data ->
  (forall acc' bits' ret', exists e, emit 17 acc' bits' t maxv ret' = Err e \/ exists x, emit 17 acc' bits' t maxv ret' = Ok x) ->
  exists e, convert_loop data f t maxv acc bits ret = Err e.
Proof.
  intros Hf. induction data as [| v data IH]; intros acc bits ret Hn Hp He.
  - exfalso. apply Hn. constructor.
  - inversion Hp; subst. cbn [convert_loop].
    destruct (Z.eqb_spec (Z.shiftr v f) 0) as [E | E]; cbn [negb]; [| eauto].
    rewrite Z.shiftr_div_pow2 in E by lia.
    assert (v < 2 ^ f).
    { destruct (Z.lt_ge_cases v (2 ^ f)); auto.
      assert (1 <= v / 2 ^ f) by (apply Z.div_le_lower_bound; [apply Z.pow_pos_nonneg |]; lia). lia. }
    destruct (He (Z.lor (u32 (Z.shiftl acc f)) v) (u8 (bits + f)) ret) as [e [E' | [[b r] E']]];
      rewrite E'; cbn [bind]; [eauto |].
    apply IH; auto. intros G. apply Hn. constructor; auto; lia.
Qed.

Lemma last_digit acc bits t : 0 <= acc -> 0 <= bits < t -> t <= 8 ->
  Z.land (u8 (u32 (Z.shiftl acc (t - bits)))) (2 ^ t - 1) = acc mod 2 ^ bits * 2 ^ (t - bits).
Proof.
  intros. rewrite land_ones_mod by lia. unfold u8, u32. rewrite !mod_mod_pow by lia.
  rewrite Z.shiftl_mul_pow2 by lia. replace t with ((t - bits) + bits) at 2 by lia.
  apply mul_pow_mod; lia.
Qed.

(** Regrouping with padding. *)
Lemma convert_pad f t data : 0 < f <= 8 -> 0 < t <= 8 -> grp f data ->
  exists v k, convertBits data f t true = Ok v /\ grp t v /\ 0 <= k < t /\
    t * zlen v = f * zlen data + k /\ bev (2 ^ t) v = bev (2 ^ f) data * 2 ^ k.
Proof.
  intros Hf Ht Hd. unfold convertBits.
  rewrite Z.shiftl_mul_pow2, Z.mul_1_l by lia.
  assert (2 ^ t <= 2 ^ 8) by (apply Z.pow_le_mono_r; lia).
  assert (0 < 2 ^ t) by (apply Z.pow_pos_nonneg; lia).
  assert (E8 : 2 ^ 8 = 256) by reflexivity.
  rewrite u8_id by lia.
  destruct (convert_loop_spec f t Hf Ht data [] 0 0 []) as (acc & bits & ret & E & Ha & Hb & Hr & HL & HV);
    auto; try (unfold zlen, bev; cbn; lia); try (apply Forall_nil).
  cbn [app] in HL, HV. rewrite E. cbn [bind].
  destruct (Z.ltb_spec 0 bits) as [Hp | Hz].
  - exists (ret ++ [acc mod 2 ^ bits * 2 ^ (t - bits)]), (t - bits).
    rewrite last_digit by lia.
    pose proof (Z.mod_pos_bound acc (2 ^ bits) ltac:(apply Z.pow_pos_nonneg; lia)) as Hm.
    assert (Ep : 2 ^ t = 2 ^ bits * 2 ^ (t - bits)) by (rewrite <- Z.pow_add_r by lia; f_equal; lia).
    assert (0 < 2 ^ (t - bits)) by (apply Z.pow_pos_nonneg; lia).
    repeat split; try lia.
    + apply Forall_app. split; auto. constructor; [| constructor]. nia.
    + rewrite zlen_app. unfold zlen at 2. cbn [length]. lia.
    + rewrite bev_snoc, <- HV, Ep. ring.
  - assert (bits = 0) by lia. subst bits. exists ret, 0. repeat split; auto; try lia.
    rewrite <- HV. change (2 ^ 0) with 1. rewrite Z.mod_1_r. lia.
Qed.

(** Regrouping without padding succeeds exactly when the left-over bits are fewer than [f] and zero. *)
Lemma convert_nopad f t data : 0 < f <= 8 -> 0 < t <= 8 -> grp f data ->
  (exists v k, convertBits data f t false = Ok v /\ grp t v /\ 0 <= k < f /\ k < t /\
     f * zlen data = t * zlen v + k /\ bev (2 ^ f) data = bev (2 ^ t) v * 2 ^ k) \/
  ((exists e, convertBits data f t false = Err e) /\
   exists v k r, grp t v /\ 0 <= k < t /\ f * zlen data = t * zlen v + k /\
     bev (2 ^ f) data = bev (2 ^ t) v * 2 ^ k + r /\ 0 <= r < 2 ^ k /\ (f <= k \/ r <> 0)).
Proof.
  intros Hf Ht Hd. unfold convertBits.
  rewrite Z.shiftl_mul_pow2, Z.mul_1_l by lia.
  assert (2 ^ t <= 2 ^ 8) by (apply Z.pow_le_mono_r; lia).
  assert (0 < 2 ^ t) by (apply Z.pow_pos_nonneg; lia).
  assert (E8 : 2 ^ 8 = 256) by reflexivity.
  rewrite u8_id by lia.
  destruct (convert_loop_spec f t Hf Ht data [] 0 0 []) as (acc & bits & ret & E & Ha & Hb & Hr & HL & HV);
    auto; try (unfold zlen, bev; cbn; lia); try (apply Forall_nil).
  cbn [app] in HL, HV. rewrite E. cbn [bind].
  pose proof (Z.mod_pos_bound acc (2 ^ bits) ltac:(apply Z.pow_pos_nonneg; lia)) as Hm.
  destruct (Z.leb_spec f bits) as [Hp | Hz].
  - right. split; [eauto |]. exists ret, bits, (acc mod 2 ^ bits). repeat split; auto; lia.
  - rewrite last_digit by lia.
    destruct (Z.eqb_spec (acc mod 2 ^ bits * 2 ^ (t - bits)) 0) as [Z0 | N0]; cbn [negb].
    + left. exists ret, bits.
      assert (acc mod 2 ^ bits = 0).
      { assert (0 < 2 ^ (t - bits)) by (apply Z.pow_pos_nonneg; lia). nia. }
      repeat split; auto; try lia.
    + right. split; [eauto |]. exists ret, bits, (acc mod 2 ^ bits). repeat split; auto; try lia.
Qed.

(** The two regroupings are inverse to each other. *)
Lemma convert_8_5_8 data v : bytes_ok data -> convertBits data 8 5 true = Ok v ->
  grp 5 v /\ convertBits v 5 8 false = Ok data.
Proof.
  intros Hd E.
  destruct (convert_pad 8 5 data) as (v' & k & E' & Hv & Hk & HL & HV); try lia; auto.
  rewrite E in E'. injection E' as <-. split; auto.
  destruct (convert_nopad 5 8 v) as [(w & j & E2 & Hw & Hj & Hj' & HL2 & HV2) | (_ & w & j & r & Hw & Hj & HL2 & HV2 & Hr & Hbad)];
    try lia; auto.
  - assert (j = k) by lia. subst j. assert (zlen w = zlen data) by lia.
    rewrite E2. f_equal. apply (bev_inj (2 ^ 8)); auto; try (unfold zlen in *; lia).
    assert (0 < 2 ^ k) by (apply Z.pow_pos_nonneg; lia). rewrite HV in HV2. nia.
  - assert (j = k) by lia. subst j. rewrite HV in HV2.
    exfalso. destruct Hbad as [? | Hbad]; [lia |]. apply Hbad.
    assert (0 < 2 ^ k) by (apply Z.pow_pos_nonneg; lia).
    assert (bev (2 ^ 8) data = bev (2 ^ 8) w /\ 0 = r) by (apply (Z.div_mod_unique (2 ^ k)); lia). lia.
Qed.

Lemma convert_5_8_5 v data : grp 5 v -> convertBits v 5 8 false = Ok data ->
  bytes_ok data /\ convertBits data 8 5 true = Ok v.
Proof.
  intros Hv E.
  destruct (convert_nopad 5 8 v) as [(w & j & E2 & Hw & Hj & Hj' & HL2 & HV2) | ((e & E2) & _)];
    try lia; auto; [| congruence].
  rewrite E in E2. injection E2 as <-.
  split; auto.
  destruct (convert_pad 8 5 data) as (v' & k & E' & Hv' & Hk & HL & HV); try lia; auto.
  assert (k = j) by lia. subst j. rewrite E'. f_equal.
  assert (zlen v' = zlen v) by lia.
  apply (bev_inj (2 ^ 5)); auto; unfold zlen in *; try lia; congruence.
Qed.

Lemma convert_8_5_ok data : bytes_ok data -> exists v, convertBits data 8 5 true = Ok v.
Proof.
  intros. destruct (convert_pad 8 5 data) as (v & k & E & _); try lia; auto. eauto.
Qed.
