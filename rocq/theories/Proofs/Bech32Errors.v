(** Substituted characters in the data part of a bech32 string. *)
From Verif.Model Require Import Base Bech32.
From Verif.Proofs Require Import Util ConvertBits Polymod Bech32Facts.

Lemma xors_self a : xors a a = repeat 0 (length a).
Proof. induction a; cbn [xors length repeat]; auto. rewrite Z.lxor_nilpotent, IHa. reflexivity. Qed.

Lemma xors_app a b c d : length a = length c -> xors (a ++ b) (c ++ d) = xors a c ++ xors b d.
Proof. revert c. induction a; intros [| y c] L; try discriminate; cbn [xors app]; auto. rewrite IHa; auto. Qed.

Lemma polymod_diff a b : length a = length b -> grp 5 a -> grp 5 b ->
  Z.lxor (polymod a) (polymod b) = reg 0 (xors a b).
Proof. intros L Ha Hb. rewrite (polymod_reg a), (polymod_reg b). rewrite <- reg_lxor; auto using in30_1. Qed.

(** One substituted symbol changes the register. *)
Lemma one_error p x y q : grp 5 p -> grp 5 q -> 0 <= x < 32 -> 0 <= y < 32 -> x <> y ->
  polymod (p ++ x :: q) <> polymod (p ++ y :: q).
Proof.
  intros Hp Hq Hx Hy N E.
  assert (D : Z.lxor (polymod (p ++ x :: q)) (polymod (p ++ y :: q)) = 0) by (rewrite E; apply Z.lxor_nilpotent).
  rewrite polymod_diff in D.
  - rewrite xors_app in D by auto. cbn [xors] in D.
    rewrite !xors_self, reg_app, reg_zeros_0 in D. cbn [reg fold_left] in D.
    fold (reg (polymod_step 0 (Z.lxor x y)) (repeat 0 (length q))) in D.
    assert (I0 : in30 0) by (unfold in30; lia).
    rewrite step_clk, clk_0, Z.lxor_0_l in D by auto.
    assert (R : 0 <= Z.lxor x y < 32) by (apply (lxor_range x y 5); lia).
    revert D. apply reg_zeros_nonzero; [apply in30_small; auto |].
    intros Z0. apply N, Z.lxor_eq, Z0.
  - rewrite !app_length. reflexivity.
  - apply Forall_app; auto.
  - apply Forall_app; auto.
Qed.

(** Two substituted symbols at distance below 1023 change the register. *)
Lemma two_errors p x y m x' y' q : grp 5 p -> grp 5 m -> grp 5 q ->
  0 <= x < 32 -> 0 <= y < 32 -> 0 <= x' < 32 -> 0 <= y' < 32 -> x <> y ->
  (length m < 1022)%nat ->
  polymod (p ++ x :: m ++ x' :: q) <> polymod (p ++ y :: m ++ y' :: q).
Proof.
  intros Hp Hm Hq Hx Hy Hx' Hy' N Lm E.
  assert (D : Z.lxor (polymod (p ++ x :: m ++ x' :: q)) (polymod (p ++ y :: m ++ y' :: q)) = 0)
    by (rewrite E; apply Z.lxor_nilpotent).
  assert (G : forall u v, 0 <= u < 32 -> 0 <= v < 32 -> grp 5 (p ++ u :: m ++ v :: q)).
  { intros. apply Forall_app; split; [auto |]. apply Forall_cons; [auto |]. apply Forall_app; auto. }
  rewrite polymod_diff in D by (auto; rewrite ?app_length; cbn; rewrite ?app_length; reflexivity).
  rewrite xors_app in D by auto. cbn [xors] in D. rewrite xors_app in D by auto. cbn [xors] in D.
  rewrite !xors_self, reg_app, reg_zeros_0 in D. cbn [reg fold_left] in D.
  fold (reg (polymod_step 0 (Z.lxor x y)) (repeat 0 (length m) ++ Z.lxor x' y' :: repeat 0 (length q))) in D.
  assert (I0 : in30 0) by (unfold in30; lia).
  rewrite step_clk, clk_0, Z.lxor_0_l in D by auto.
  assert (R : 0 <= Z.lxor x y < 32) by (apply (lxor_range x y 5); lia).
  assert (R' : 0 <= Z.lxor x' y' < 32) by (apply (lxor_range x' y' 5); lia).
  assert (Ri : in30 (Z.lxor x y)) by (apply in30_small; auto).
  rewrite reg_app, reg_zeros_clks in D by auto. cbn [reg fold_left] in D.
  rewrite step_clk in D by (apply clks_range; auto).
  fold (reg (Z.lxor (clk (clks (length m) (Z.lxor x y))) (Z.lxor x' y')) (repeat 0 (length q))) in D.
  change (clk (clks (length m) (Z.lxor x y))) with (clks (S (length m)) (Z.lxor x y)) in D.
  revert D. apply reg_zeros_nonzero.
  - apply lxor_range; [lia | apply clks_range; auto | apply in30_small; auto].
  - intros Z0. apply Z.lxor_eq in Z0. revert Z0. apply two_far; auto; [lia |].
    intros Z0. apply N, Z.lxor_eq, Z0.
Qed.

Lemma from_chars_app a b : forall va vb, from_chars a = Ok va -> from_chars b = Ok vb -> from_chars (a ++ b) = Ok (va ++ vb).
Proof.
  induction a as [| c a IH]; intros va vb Ha Hb; cbn [from_chars] in Ha.
  - injection Ha as <-. exact Hb.
  - destruct (index_of charset c) as [d |] eqn:E; [| discriminate].
    apply bind_ok in Ha as (l & El & E2). injection E2 as <-.
    cbn [app from_chars]. rewrite E, (IH _ _ El Hb). reflexivity.
Qed.
Lemma from_chars_app_inv a b v : from_chars (a ++ b) = Ok v ->
  exists va vb, from_chars a = Ok va /\ from_chars b = Ok vb /\ v = va ++ vb.
Proof.
  revert v. induction a as [| c a IH]; intros v H.
  - exists [], v. auto.
  - cbn [app from_chars] in *. destruct (index_of charset c) as [d |] eqn:E; [| discriminate].
    apply bind_ok in H as (l & El & E2). injection E2 as <-.
    destruct (IH _ El) as (va & vb & Ea & Eb & ->). exists (d :: va), vb. rewrite Ea. auto.
Qed.
Lemma from_chars_cons_inv c b v : from_chars (c :: b) = Ok v ->
  exists d vb, index_of charset c = Some d /\ from_chars b = Ok vb /\ v = d :: vb.
Proof.
  intros H. cbn [from_chars] in H. destruct (index_of charset c) as [d |] eqn:E; [| discriminate].
  apply bind_ok in H as (l & El & E2). injection E2 as <-. eauto.
Qed.

Section Uni.
Context {U : Unicode}.

(** Two ASCII strings of the given shape; the first accepted, the second with another register. *)
Lemma reject_other s s' hrp data hl cs cs' w w' :
  ascii_only s = true -> decode s = Ok (hrp, data) ->
  map lower_byte s = hl ++ 49 :: cs -> from_chars cs = Ok w ->
  ascii_only s' = true -> map lower_byte s' = hl ++ 49 :: cs' -> from_chars cs' = Ok w' ->
  length w = length w' ->
  polymod (expand hl ++ w) <> polymod (expand hl ++ w') ->
  decode s' = Err (if bytes_eqb (map lower_byte s') s' || bytes_eqb (map upper_byte s') s'
                   then EBech32Checksum else EBech32Mixed).
Proof.
  intros As Hd Es Hw As' Es' Hw' Lw P.
  destruct (decode_inv s hrp data As Hd) as
    (hl0 & cs0 & w0 & Case & Es0 & Nh & Hh & Hll & Fc & L6 & P0 & Eh & Ehl & Cv).
  rewrite Es in Es0.
  assert (Same : hl = hl0 /\ cs = cs0).
  { destruct (from_chars_inv _ _ Hw) as (_ & _ & _ & F1). destruct (from_chars_inv _ _ Fc) as (_ & _ & _ & F2).
    assert (N1 : ~ In 49 cs) by (intros I; rewrite Forall_forall in F1; apply F1 in I; tauto).
    assert (N2 : ~ In 49 cs0) by (intros I; rewrite Forall_forall in F2; apply F2 in I; tauto).
    pose proof (last_index_split hl cs 49 N1) as E1. rewrite Es0, last_index_split in E1 by auto.
    injection E1 as E1. apply app_inj_len in Es0 as [-> E]; [injection E; auto | lia]. }
  destruct Same as [<- <-]. rewrite Hw in Fc. injection Fc as <-.
  destruct (bytes_eqb (map lower_byte s') s' || bytes_eqb (map upper_byte s') s') eqn:B.
  - rewrite (decode_shape s' hl cs' w'); auto; [| | lia].
    + destruct (Z.eqb_spec (polymod (expand hl ++ w')) 1); [congruence | reflexivity].
    + rewrite to_lower_ascii, to_upper_ascii by auto. apply orb_prop in B.
      rewrite !bytes_eqb_eq in B. exact B.
  - apply orb_false_iff in B as [B1 B2]. unfold decode.
    rewrite to_lower_ascii, to_upper_ascii, B1, B2 by auto. reflexivity.
Qed.

End Uni.
