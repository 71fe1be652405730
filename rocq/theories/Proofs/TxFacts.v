(** Transactions: serialisation. *)
From Coq Require Import Permutation.
From Verif.Model Require Import Base Bech32 Hex Cbor Network Address Tx.
From Verif.Spec Require Import CborSpec CrcSpec ByronSpec TxSpec MdSpec.
From Verif.Spec Require Export Values.
From Verif.Proofs Require Import Util CborFacts CborParse ByronFacts.

(** ** Metadata *)
Lemma md_ind' (P : md -> Prop) :
  (forall n, P (MdUint n)) -> (forall n, P (MdNint n)) -> (forall b, P (MdBytes b)) -> (forall b, P (MdText b)) ->
  (forall b, P (MdBool b)) -> P MdNull ->
  (forall l, Forall P l -> P (MdArray l)) ->
  (forall l, Forall (fun p => P (fst p) /\ P (snd p)) l -> P (MdMap l)) ->
  (forall l, Forall (fun p => P (fst p) /\ P (snd p)) l -> P (MdStruct l)) -> (forall t v, P v -> P (MdTag t v)) -> (forall d n, P (MdFloat d n)) -> P MdBad -> forall m, P m.
Proof.
  intros H1 H2 H3 H4 H5 H6 H7 H8 H10 H11 H12 H9. fix IH 1. intros [n | n | b | b | b | | l | l | l | t v | d n |].
  - apply H1. - apply H2. - apply H3. - apply H4. - apply H5. - apply H6.
  - apply H7. induction l as [| x l IHl]; constructor; [apply IH | exact IHl].
  - apply H8. induction l as [| [k v] l IHl]; constructor; [split; apply IH | exact IHl].
  - apply H10. induction l as [| [k v] l IHl]; constructor; [split; apply IH | exact IHl].
  - apply H11. apply IH. - apply H12.
  - apply H9.
Qed.

Lemma float_item_ok (d : bool) n : 0 <= n < 2 ^ (if d then 64 else 32) -> item_ok (float_item d n).
Proof.
  intros N. unfold float_item. cbv zeta. destruct (_ <? _); [destruct d; cbn [item_ok]; (split; [auto |]); [change (256 ^ 8) with (2 ^ 64) | change (256 ^ 4) with (2 ^ 32)]; exact N |].
  destruct (_ =? _); [destruct (_ <? _) |]; cbn [item_ok]; (split; [auto | vm_compute; split; [discriminate | reflexivity]]).
Qed.
Lemma float_bits w e n : 0 < w -> 0 < e -> 0 <= n < 2 ^ (w + e + 1) ->
  let m := n mod 2 ^ (w + e) in
  (Z.land (Z.shiftr n w) (2 ^ e - 1) =? 2 ^ e - 1) = negb (m <? (2 ^ e - 1) * 2 ^ w) /\
  ((2 ^ e - 1) * 2 ^ w <= m -> (Z.land n (2 ^ w - 1) =? 0) = (m =? (2 ^ e - 1) * 2 ^ w)) /\ Z.testbit n (w + e) = negb (n <? 2 ^ (w + e)).
Proof.
  intros W E N m. replace (2 ^ e - 1) with (Z.ones e) by (rewrite Z.ones_equiv; lia). replace (2 ^ w - 1) with (Z.ones w) by (rewrite Z.ones_equiv; lia). rewrite !Z.land_ones by lia. rewrite Z.shiftr_div_pow2 by lia.
  pose proof (Z.pow_pos_nonneg 2 w ltac:(lia) ltac:(lia)) as PW. pose proof (Z.pow_pos_nonneg 2 e ltac:(lia) ltac:(lia)) as PE.
  assert (Q : n / 2 ^ w mod 2 ^ e = m / 2 ^ w). { unfold m. rewrite Z.pow_add_r by lia. rewrite Z.rem_mul_r by lia. rewrite (Z.mul_comm (2 ^ w)), Z.div_add, (Z.div_small (n mod 2 ^ w)) by (try apply Z.mod_pos_bound; lia). reflexivity. }
  assert (R : n mod 2 ^ w = m mod 2 ^ w). { unfold m. rewrite Z.pow_add_r by lia. rewrite Z.rem_mul_r by lia. rewrite (Z.mul_comm (2 ^ w)), Z.mod_add, Z.mod_mod by lia. reflexivity. }
  assert (M : 0 <= m < 2 ^ e * 2 ^ w) by (unfold m; rewrite (Z.mul_comm (2 ^ e)), <- Z.pow_add_r by lia; apply Z.mod_pos_bound; lia).
  rewrite Q, R. rewrite Z.ones_equiv. pose proof (Z.div_mod m (2 ^ w) ltac:(lia)) as D. pose proof (Z.mod_pos_bound m (2 ^ w) ltac:(lia)) as B. assert (T : m / 2 ^ w < 2 ^ e) by (apply Z.div_lt_upper_bound; lia).
  split; [| split].
  - destruct (Z.eqb_spec (m / 2 ^ w) (Z.pred (2 ^ e))), (Z.ltb_spec m (Z.pred (2 ^ e) * 2 ^ w)); try reflexivity; exfalso; nia.
  - intros L. destruct (Z.eqb_spec (m mod 2 ^ w) 0), (Z.eqb_spec m (Z.pred (2 ^ e) * 2 ^ w)); try reflexivity; exfalso.
    + assert (m / 2 ^ w = Z.pred (2 ^ e)) by nia. nia.
    + subst m. rewrite e0, Z.mod_mul in n0 by lia. lia.
  - rewrite Z.testbit_eqb by lia. assert (V : n / 2 ^ (w + e) < 2) by (apply Z.div_lt_upper_bound; [lia |]; rewrite Z.pow_add_r in N by lia; lia). assert (V0 : 0 <= n / 2 ^ (w + e)) by (apply Z.div_pos; lia).
    pose proof (Z.div_mod n (2 ^ (w + e)) ltac:(lia)) as D'. pose proof (Z.mod_pos_bound n (2 ^ (w + e)) ltac:(lia)) as B'. rewrite (Z.mod_small (n / 2 ^ (w + e)) 2) by lia.
    destruct (Z.eqb_spec (n / 2 ^ (w + e)) 1), (Z.ltb_spec n (2 ^ (w + e))); try reflexivity; exfalso; nia.
Qed.
Lemma enc_float_spec (d : bool) n : 0 <= n < 2 ^ (if d then 64 else 32) -> enc_float d n = cbor (float_item d n).
Proof.
  intros N. unfold enc_float, float_item. cbv zeta. destruct d.
  - destruct (float_bits 52 11 n ltac:(lia) ltac:(lia) N) as (F1 & F2 & F3). change (52 + 11) with 63 in F1, F2, F3. change (2 ^ 11 - 1) with 2047 in F1, F2, F3. rewrite F1, F3. destruct (Z.ltb_spec (n mod 2 ^ 63) (2047 * 2 ^ 52)) as [L | L]; cbn [negb].
    + cbn [cbor Z.eqb Pos.eqb]. change (Z.to_nat 8) with 8%nat. rewrite be_bytes_be. reflexivity.
    + rewrite (F2 L). destruct (n mod _ =? _); [destruct (n <? _) |]; reflexivity.
  - destruct (float_bits 23 8 n ltac:(lia) ltac:(lia) N) as (F1 & F2 & F3). change (23 + 8) with 31 in F1, F2, F3. change (2 ^ 8 - 1) with 255 in F1, F2, F3. rewrite F1, F3. destruct (Z.ltb_spec (n mod 2 ^ 31) (255 * 2 ^ 23)) as [L | L]; cbn [negb].
    + cbn [cbor Z.eqb Pos.eqb]. change (Z.to_nat 4) with 4%nat. rewrite be_bytes_be. reflexivity.
    + rewrite (F2 L). destruct (n mod _ =? _); [destruct (n <? _) |]; reflexivity.
Qed.

Lemma md_item_ok m : md_ok m -> item_ok (md_item m).
Proof.
  induction m as [n | n | b | b | b | | l IH | l IH | l IH | t v IH | d n |] using md_ind'; cbn [md_ok md_item item_ok]; intros H; try exact H; try (destruct b; lia); try lia; try contradiction; try (apply float_item_ok; exact H).
  - destruct H as [L H]. rewrite map_length. split; [exact L |]. clear L.
    induction IH as [| x l Hx Hl IHl]; cbn [map fold_right] in *; [exact I |]. destruct H as [H1 H2]. split; auto.
  - destruct H as [L H]. rewrite map_length. split; [exact L |]. clear L.
    induction IH as [| [k v] l [Hk Hv] Hl IHl]; cbn [map fold_right fst snd] in *; [exact I |]. destruct H as (H1 & H2 & H3). split; [auto |]. split; auto.
  - destruct H as [L H]. rewrite map_length. split; [exact L |]. clear L.
    induction IH as [| [k v] l [Hk Hv] Hl IHl]; cbn [map fold_right fst snd] in *; [exact I |]. destruct H as (H1 & H2 & H3). split; [auto |]. split; auto.
  - destruct H as [L H]. split; [exact L | apply IH; exact H].
Qed.

Lemma enc_md_spec m : md_ok m -> enc_md m = Ok (cbor (md_item m)).
Proof.
  induction m as [n | n | b | b | b | | l IH | l IH | l IH | t v IH | d n |] using md_ind'; cbn [md_ok md_item enc_md cbor]; intros H.
  - rewrite enc_uint_spec by lia. reflexivity.
  - unfold enc_nint. rewrite enc_head_spec by lia. reflexivity.
  - rewrite enc_bytes_spec by (unfold zlen; lia). reflexivity.
  - rewrite enc_text_spec by (unfold zlen; lia). reflexivity.
  - destruct b; reflexivity.
  - reflexivity.
  - destruct H as [L H]. unfold enc_array_head. rewrite enc_head_spec by (unfold zlen; lia).
    rewrite map_length.
    match goal with |- (do body <- ?g l; _) = _ => assert (E : g l = Ok (flat_map cbor (map md_item l))) end.
    { clear L. induction IH as [| x l Hx Hl IHl]; [reflexivity |]. cbn [fold_right] in H. destruct H as [H1 H2].
      cbn [map flat_map]. rewrite (Hx H1). cbn [bind]. rewrite (IHl H2). reflexivity. }
    rewrite E. reflexivity.
  - destruct H as [L H]. unfold enc_map_head. rewrite enc_head_spec by (unfold zlen; lia).
    rewrite map_length.
    match goal with |- (do body <- ?g l; _) = _ => assert (E : g l = Ok (flat_map (fun '(k, v) => cbor k ++ cbor v) (map (fun '(k, v) => (md_item k, md_item v)) l))) end.
    { clear L. induction IH as [| [k v] l [Hk Hv] Hl IHl]; [reflexivity |]. cbn [fold_right fst snd] in *. destruct H as (H1 & H2 & H3).
      cbn [map flat_map]. rewrite (Hk H1). cbn [bind]. rewrite (Hv H2). cbn [bind]. rewrite (IHl H3). cbn [bind]. rewrite <- app_assoc. reflexivity. }
    rewrite E. reflexivity.
  - destruct H as [L H]. unfold enc_map_head. rewrite enc_head_spec by (unfold zlen; lia).
    rewrite map_length.
    match goal with |- (do body <- ?g l; _) = _ => assert (E : g l = Ok (flat_map (fun '(k, v) => cbor k ++ cbor v) (map (fun '(k, v) => (md_item k, md_item v)) l))) end.
    { clear L. induction IH as [| [k v] l [Hk Hv] Hl IHl]; [reflexivity |]. cbn [fold_right fst snd] in *. destruct H as (H1 & H2 & H3).
      cbn [map flat_map]. rewrite (Hk H1). cbn [bind]. rewrite (Hv H2). cbn [bind]. rewrite (IHl H3). cbn [bind]. rewrite <- app_assoc. reflexivity. }
    rewrite E. reflexivity.
  - destruct H as [L H]. rewrite (IH H). cbn [bind]. unfold enc_tag_head. rewrite enc_head_spec by lia. reflexivity.
  - rewrite enc_float_spec by exact H. reflexivity.
  - contradiction.
Qed.

Lemma fold_right_Forall {A} (P : A -> Prop) l : fold_right (fun v Q => P v /\ Q) True l <-> Forall P l.
Proof. induction l as [| x l IH]; cbn; [split; auto |]. rewrite IH. split; [intros []; constructor; auto | inversion 1; auto]. Qed.

Lemma order_free_perm m : order_free m -> forall m', md_perm m m' -> m' = m.
Proof.
  induction m as [n | n | b | b | b | | l IH | l IH | l IH | t v IH | d n |] using md_ind'; intros H m' P; inversion P; subst; auto.
  - cbn [order_free] in H. apply fold_right_Forall in H. f_equal. clear P.
    match goal with F : Forall2 _ _ _ |- _ => revert H IH; induction F as [| x y l l' Hxy F IHF]; intros H IH; auto end.
    inversion H; subst. inversion IH; subst. f_equal; auto.
  - f_equal. destruct l as [| [k v] [| [k2 v2] l]]; cbn [order_free] in H; try contradiction.
    + match goal with F : Forall2 _ [] _ |- _ => inversion F; subst end. apply Permutation_nil. auto.
    + match goal with F : Forall2 _ [_] _ |- _ => inversion F as [| p q ? ? [F1 F2] F3]; subst end. inversion F3; subst.
      match goal with Q : Permutation [_] _ |- _ => apply Permutation_length_1_inv in Q; subst end.
      inversion IH as [| ? ? [I1 I2] _]; subst. destruct H as [Hk Hv]. destruct q as [k' v']. cbn [fst snd] in *.
      rewrite (I1 Hk _ F1), (I2 Hv _ F2). reflexivity.
  - cbn [order_free] in H. f_equal. clear P.
    match goal with F : Forall2 _ _ _ |- _ => revert H IH; induction F as [| [k v] [k' v'] l l' [Hk Hv] F IHF]; intros H IH; auto end.
    cbn [fold_right fst snd] in *. destruct H as (O1 & O2 & O3). inversion IH as [| ? ? [I1 I2] I3]; subst. cbn [fst snd] in *. f_equal; [| auto]. rewrite (I1 O1 _ Hk), (I2 O2 _ Hv). reflexivity.
  - cbn [order_free] in H. f_equal. auto.
Qed.

Lemma fold_right_pair_Forall {A} (P : A -> Prop) l : fold_right (fun '(k, v) Q => P k /\ P v /\ Q) True l <-> Forall (fun p => P (fst p) /\ P (snd p)) l.
Proof.
  induction l as [| [k v] l IH]; cbn [fold_right]; [split; auto |]. rewrite IH. split; [intros (? & ? & ?); constructor; auto | inversion 1 as [| ? ? [] ?]; auto].
Qed.

Lemma Forall2_len {A B} (R : A -> B -> Prop) l l' : Forall2 R l l' -> length l = length l'.
Proof. induction 1; cbn; auto. Qed.

(** Reordering keeps validity and the number of bytes. *)
Lemma md_perm_ok m : md_ok m -> forall m', md_perm m m' -> md_ok m' /\ length (cbor (md_item m')) = length (cbor (md_item m)).
Proof.
  induction m as [n | n | b | b | b | | l IH | l IH | l IH | t v IH | d n |] using md_ind'; intros H m' P; inversion P; subst; auto.
  - cbn [md_ok] in *. destruct H as [L H]. rewrite fold_right_Forall in *.
    match goal with F : Forall2 _ l ?x |- _ => rename x into l'; rename F into F0 end.
    pose proof (Forall2_len _ _ _ F0) as EL. rewrite <- EL. 
    assert (G : Forall md_ok l' /\ length (flat_map cbor (map md_item l')) = length (flat_map cbor (map md_item l))).
    { clear -F0 H IH. induction F0 as [| x y l l' Hxy F IHF]; [split; auto |]. inversion H as [| ? ? O1 O2]; subst. inversion IH as [| ? ? Q1 Q2]; subst.
      destruct IHF as [I1 I2]; auto. destruct (Q1 O1 y Hxy) as [J1 J2]. cbn [map flat_map]. rewrite !app_length, J2, I2. split; auto. }
    destruct G as [G1 G2]. split; [auto |]. cbn [md_item cbor]. rewrite !app_length, !map_length, G2, EL. reflexivity.
  - cbn [md_ok] in *. destruct H as [L H]. rewrite fold_right_pair_Forall in *.
    match goal with F : Forall2 _ l ?x, Q : Permutation ?x ?y |- _ => rename F into F0; rename Q into Q0; rename x into l'; rename y into l'' end.
    pose proof (Forall2_len _ _ _ F0) as EL. pose proof (Permutation_length Q0) as EL2.
    assert (G : Forall (fun p => md_ok (fst p) /\ md_ok (snd p)) l' /\
      length (flat_map (fun '(k, v) => cbor k ++ cbor v) (map (fun '(k, v) => (md_item k, md_item v)) l')) =
      length (flat_map (fun '(k, v) => cbor k ++ cbor v) (map (fun '(k, v) => (md_item k, md_item v)) l))).
    { clear -F0 H IH. induction F0 as [| [k v] [k' v'] l l' [Hk Hv] F IHF]; [split; auto |]. inversion H as [| ? ? [O1 O2] O3]; subst. inversion IH as [| ? ? [I1 I2] I3]; subst.
      cbn [fst snd] in *. destruct IHF as [J1 J2]; auto. destruct (I1 O1 k' Hk) as [K1 K2]. destruct (I2 O2 v' Hv) as [K3 K4].
      cbn [map flat_map]. rewrite !app_length, K2, K4, J2. split; auto. }
    destruct G as [G1 G2].
    assert (G3 : length (flat_map (fun '(k, v) => cbor k ++ cbor v) (map (fun '(k, v) => (md_item k, md_item v)) l'')) =
      length (flat_map (fun '(k, v) => cbor k ++ cbor v) (map (fun '(k, v) => (md_item k, md_item v)) l'))).
    { clear -Q0. induction Q0; cbn [map flat_map]; rewrite ?app_length; try lia. }
    split; [split; [lia |]; eapply Permutation_Forall; eauto |].
    cbn [md_item cbor]. rewrite !app_length, !map_length, G3, G2, <- EL2, EL. reflexivity.
  - cbn [md_ok] in *. destruct H as [L H]. rewrite fold_right_pair_Forall in *.
    match goal with F : Forall2 _ l ?x |- _ => rename F into F0; rename x into l' end.
    pose proof (Forall2_len _ _ _ F0) as EL.
    assert (G : Forall (fun p => md_ok (fst p) /\ md_ok (snd p)) l' /\
      length (flat_map (fun '(k, v) => cbor k ++ cbor v) (map (fun '(k, v) => (md_item k, md_item v)) l')) =
      length (flat_map (fun '(k, v) => cbor k ++ cbor v) (map (fun '(k, v) => (md_item k, md_item v)) l))).
    { clear -F0 H IH. induction F0 as [| [k v] [k' v'] l l' [Hk Hv] F IHF]; [split; auto |]. inversion H as [| ? ? [O1 O2] O3]; subst. inversion IH as [| ? ? [I1 I2] I3]; subst.
      cbn [fst snd] in *. destruct IHF as [J1 J2]; auto. destruct (I1 O1 k' Hk) as [K1 K2]. destruct (I2 O2 v' Hv) as [K3 K4].
      cbn [map flat_map]. rewrite !app_length, K2, K4, J2. split; auto. }
    destruct G as [G1 G2]. split; [split; [lia | exact G1] |].
    cbn [md_item cbor]. rewrite !app_length, !map_length, G2, EL. reflexivity.
  - cbn [md_ok] in *. destruct H as [L H]. match goal with Q : md_perm v ?x |- _ => destruct (IH H x Q) as [J1 J2] end. split; [auto |]. cbn [md_item cbor]. rewrite !app_length, J2. reflexivity.
Qed.

(** ** Items of a transaction *)
Lemma addr_marshal_spec o : out_ok o -> addr_marshal (OutAddress o) = Ok (cbor (addr_item (OutAddress o))) /\ item_ok (addr_item (OutAddress o)).
Proof.
  intros [H _]. destruct (OutAddress o); cbn [addr_marshal addr_item addr_bytes] in *; try contradiction;
    try (rewrite enc_bytes_spec by apply H; split; [reflexivity |]; cbn [item_ok]; unfold zlen in H; split; apply H).
  rewrite byron_bytes_outer_wf by auto. pose proof (outer_ok_wf _ H) as O. rewrite raw_inner_wf in * by auto. split; [reflexivity | exact O].
Qed.

Lemma enc_outputs_spec l : Forall out_ok l -> enc_outputs l = Ok (flat_map cbor (map out_item l)) /\ Forall item_ok (map out_item l).
Proof.
  induction 1 as [| o l Ho Hl [IH1 IH2]]; [split; auto; constructor |]. destruct (addr_marshal_spec o Ho) as [E I].
  split.
  - cbn [enc_outputs map flat_map]. unfold enc_output. rewrite E. cbn [bind]. rewrite IH1. cbn [bind]. f_equal. f_equal.
    unfold out_item. cbn [cbor flat_map length]. unfold enc_array_head. rewrite enc_head_spec by lia. rewrite enc_uint_spec by apply Ho. rewrite app_nil_r. reflexivity.
  - cbn [map]. constructor; auto. unfold out_item. cbn [item_ok fold_right length]. repeat split; auto; try lia; apply Ho.
Qed.

Lemma enc_inputs_spec l : Forall in_ok l -> concat (map enc_input l) = flat_map cbor (map input_item (map in_pair l)) /\ Forall item_ok (map input_item (map in_pair l)).
Proof.
  induction 1 as [| o l Ho Hl [IH1 IH2]]; [split; auto; constructor |]. destruct Ho as (B & L & X). split.
  - cbn [map concat flat_map]. rewrite IH1. f_equal. unfold enc_input, input_item, in_pair. cbn [fst snd cbor flat_map length].
    unfold enc_array_head. rewrite enc_head_spec, enc_bytes_spec, enc_uint_spec by lia. cbn [cbor]. rewrite app_nil_r. reflexivity.
  - cbn [map]. constructor; auto. unfold input_item, in_pair. cbn [fst snd item_ok fold_right length]. unfold zlen in L. repeat split; auto; try lia; apply B; assumption.
Qed.

Lemma the_body_ok b : body_ok b -> item_ok (the_body b).
Proof.
  intros (HI & HO & LI & LO & F & T & A & LA). destruct (enc_inputs_spec _ HI) as [_ I]. destruct (enc_outputs_spec _ HO) as [_ O].
  apply fold_right_Forall in I, O. unfold the_body, body_item, zlen in *.
  destruct (TTL b =? 0), (AuxHash b) as [| x a] eqn:E; cbn [app item_ok fold_right length map] in *; rewrite ?map_length; repeat split; auto; try lia; apply A; assumption.
Qed.

Lemma body_marshal_spec b : body_ok b -> body_marshal b = Ok (cbor (the_body b)).
Proof.
  intros (HI & HO & LI & LO & F & T & A & LA). unfold body_marshal.
  rewrite (proj1 (enc_outputs_spec _ HO)), (proj1 (enc_inputs_spec _ HI)). cbn [bind]. f_equal.
  unfold enc_map_head, enc_array_head, the_body, body_item.
  pose proof (zlen_nonneg (Inputs b)). pose proof (zlen_nonneg (Outputs b)).
  rewrite !(enc_head_spec 4), !enc_uint_spec by (unfold zlen in *; lia).
  assert (Ez : (zlen (AuxHash b) =? 0) = match AuxHash b with [] => true | _ => false end) by (destruct (AuxHash b); reflexivity).
  rewrite Ez. destruct (TTL b =? 0) eqn:Et, (AuxHash b) as [| x a] eqn:E; cbn [app cbor flat_map length]; rewrite !map_length, ?(enc_bytes_spec (x :: a)) by auto;
    rewrite (enc_head_spec 5) by lia; cbn [cbor]; rewrite ?app_nil_r, <- ?app_assoc; reflexivity.
Qed.

Lemma enc_witness_spec ws : wits_ok ws -> enc_witness ws = cbor (witness_item (map wit_pair ws)) /\ item_ok (witness_item (map wit_pair ws)).
Proof.
  intros [H L].
  assert (G : concat (map enc_vkey ws) = flat_map cbor (map vkey_item (map wit_pair ws)) /\ Forall item_ok (map vkey_item (map wit_pair ws))).
  { clear L. induction H as [| w ws Hw Hs [IH1 IH2]]; [split; auto; constructor |]. destruct Hw as (B1 & L1 & B2 & L2). split.
    - cbn [map concat flat_map]. rewrite IH1. f_equal. unfold enc_vkey, vkey_item, wit_pair. cbn [fst snd cbor flat_map length].
      unfold enc_array_head. rewrite enc_head_spec, !enc_bytes_spec by lia. cbn [cbor]. rewrite app_nil_r. reflexivity.
    - cbn [map]. constructor; auto. unfold vkey_item, wit_pair. cbn [fst snd item_ok fold_right length]. unfold zlen in *.
      repeat split; auto; try lia; try (apply B1; assumption); apply B2; assumption. }
  destruct G as [G1 G2]. apply fold_right_Forall in G2. unfold enc_witness, witness_item. destruct ws as [| w ws]; [split; [reflexivity | cbn; lia] |].
  split.
  - rewrite G1. unfold enc_map_head, enc_array_head. pose proof (zlen_nonneg (w :: ws)). rewrite !enc_head_spec, enc_uint_spec by lia.
    cbn [cbor flat_map length map]. unfold zlen. cbn [length]. rewrite !map_length, ?app_nil_r, <- ?app_assoc. reflexivity.
  - cbn [item_ok fold_right length map]. cbn [map] in G2. unfold zlen in L. cbn [length] in L. rewrite !map_length. split; [lia |]. split; [lia |]. split; [| exact I]. split; [lia | exact G2].
Qed.

Lemma tx_marshal_spec {MO : MapOrder} n t : runtime_order -> tx_ok t ->
  tx_marshal n t = Ok (cbor (the_tx t (ordered n (Metadata t)))) /\ item_ok (the_tx t (ordered n (Metadata t))).
Proof.
  intros RO (HB & HW & HM). destruct (enc_witness_spec _ HW) as [EW IW]. unfold tx_marshal. rewrite body_marshal_spec, EW by auto. cbn [bind].
  assert (M : match Metadata t with None => Ok enc_nil | Some m => enc_md (map_order n m) end = Ok (cbor (the_meta (ordered n (Metadata t)))) /\
    item_ok (the_meta (ordered n (Metadata t)))).
  { destruct (Metadata t) as [m |]; [| split; [reflexivity | cbn; lia]]. cbn [ordered option_map the_meta meta_ok] in *.
    destruct (md_perm_ok m HM _ (RO n m)) as [K _]. rewrite enc_md_spec by auto. split; [reflexivity | apply md_item_ok; auto]. }
  destruct M as [EM IM]. rewrite EM. cbn [bind]. split.
  - unfold the_tx, tx_item. cbn [cbor flat_map length]. unfold enc_array_head. rewrite enc_head_spec by lia. rewrite app_nil_r.
    replace (enc_bool (Valid t)) with (cbor (bool_item (Valid t))) by (destruct (Valid t); reflexivity). reflexivity.
  - unfold the_tx, tx_item. pose proof (the_body_ok _ HB). cbn [item_ok fold_right length bool_item]. split; [lia |]. split; [auto |]. split; [auto |]. split; [destruct (Valid t); lia |]. split; [auto | exact I].
Qed.

Lemma cbor_inj i j : item_ok i -> item_ok j -> cbor i = cbor j -> i = j.
Proof.
  intros Hi Hj E. apply cval_of_inj. pose proof (parse_item_cbor i [] Hi) as P. pose proof (parse_item_cbor j [] Hj) as Q.
  rewrite E in P. congruence.
Qed.

(** ** The body determines its fields *)
Definition out_pair (o : TxOutput) := (addr_bytes (OutAddress o), OutAmount o).
Definition same_body (a b : TxBody) : Prop :=
  map in_pair (Inputs a) = map in_pair (Inputs b) /\ map out_pair (Outputs a) = map out_pair (Outputs b) /\
  Fee a = Fee b /\ TTL a = TTL b /\ AuxHash a = AuxHash b.

Lemma input_item_inj l l' : map input_item l = map input_item l' -> l = l'.
Proof.
  revert l'. induction l as [| [h i] l IH]; intros [| [h' i'] l'] H; try discriminate; auto.
  injection H as <- <- H. f_equal. apply IH. auto.
Qed.

Lemma addr_item_inj o p : out_ok o -> out_ok p -> addr_item (OutAddress o) = addr_item (OutAddress p) ->
  addr_bytes (OutAddress o) = addr_bytes (OutAddress p).
Proof.
  intros [Ho _] [Hp _].
  assert (G : forall a, match a with AByron _ => exists raw, addr_item a = byron_outer raw | _ => addr_item a = Bstr (addr_bytes a) end)
    by (intros []; cbn [addr_item]; eauto).
  pose proof (G (OutAddress o)) as Go. pose proof (G (OutAddress p)) as Gp.
  assert (X : forall b raw, Bstr b <> byron_outer raw) by (intros b raw E; unfold byron_outer in E; discriminate E).
  destruct (OutAddress o) eqn:Eo, (OutAddress p) eqn:Ep; try contradiction;
    try (intros H; rewrite Go, Gp in H; congruence);
    try (destruct Go as [raw Go]; intros H; rewrite Go, Gp in H; symmetry in H; destruct (X _ _ H));
    try (destruct Gp as [raw Gp]; intros H; rewrite Go, Gp in H; destruct (X _ _ H)).
  intros H2. cbn [addr_bytes addr_item] in *. rewrite !byron_bytes_outer_wf, !raw_inner_wf by auto. unfold inner_of. rewrite H2. reflexivity.
Qed.

Lemma out_items_inj l l' : Forall out_ok l -> Forall out_ok l' -> map out_item l = map out_item l' -> map out_pair l = map out_pair l'.
Proof.
  intros F. revert l'. induction F as [| o l Ho F IH]; intros [| o' l'] F' H; try discriminate; auto.
  inversion F' as [| ? ? Ho' F'']; subst. cbn [map] in *. unfold out_item in H at 1 3. injection H as H1 H2 H3.
  f_equal; auto. unfold out_pair. rewrite H2. f_equal. apply addr_item_inj; auto.
Qed.

Lemma the_body_inj a b : body_ok a -> body_ok b -> the_body a = the_body b -> same_body a b.
Proof.
  intros (_ & Oa & _ & _ & _ & Ta & _) (_ & Ob & _ & _ & _ & Tb & _) H. unfold the_body, body_item in H.
  injection H as H1 H2 H3 H4. unfold same_body. apply input_item_inj in H1. apply out_items_inj in H2; auto.
  split; [auto |]. split; [auto |]. split; [auto |].
  destruct (Z.eqb_spec (TTL a) 0) as [Z1 | Z1], (Z.eqb_spec (TTL b) 0) as [Z2 | Z2], (AuxHash a), (AuxHash b); cbn [app] in H4; try discriminate;
    split; congruence.
Qed.

Lemma body_marshal_inj a b s : body_ok a -> body_ok b -> body_marshal a = Ok s -> body_marshal b = Ok s -> same_body a b.
Proof.
  intros Ha Hb. rewrite !body_marshal_spec by auto. intros E1 E2. apply the_body_inj; auto. apply cbor_inj; try (apply the_body_ok; auto). congruence.
Qed.

(** ** Auxiliary data hash and the methods that compute it *)
Section Methods.
Context {C : TxCrypto} {MO : MapOrder}.

(** The body with the hash of the metadata as the n-th marshalling writes it. *)
Definition aux_body (n : nat) (t : Tx) : TxBody :=
  match Metadata t with None => Body t | Some m => set_aux (Body t) (blake2b256 (cbor (md_item (map_order n m)))) end.

Lemma calc_aux_spec n t : runtime_order -> meta_ok (Metadata t) -> calc_aux n t = Ok (aux_body n t).
Proof.
  intros RO H. unfold calc_aux, aux_body. destruct (Metadata t) as [m |]; auto. cbn [meta_ok] in H.
  destruct (md_perm_ok m H _ (RO n m)) as [K _]. rewrite enc_md_spec by auto. reflexivity.
Qed.

Lemma aux_body_ok n t : hash_ok -> body_ok (Body t) -> body_ok (aux_body n t).
Proof.
  intros HO H. unfold aux_body. destruct (Metadata t) as [m |]; auto. destruct H as (H1 & H2 & H3 & H4 & H5 & H6 & H7 & H8).
  destruct (HO (cbor (md_item (map_order n m)))) as [B L]. unfold body_ok, set_aux. cbn [Inputs Outputs Fee TTL AuxHash]. 
  split; [auto |]. split; [auto |]. split; [auto |]. split; [auto |]. split; [auto |]. split; [auto |]. split; [auto |]. unfold zlen. rewrite L. lia.
Qed.

Lemma tx_bytes_spec n t : runtime_order -> hash_ok -> tx_ok t ->
  tx_bytes n t = (aux_body n t, Ok (cbor (the_tx (with_body t (aux_body n t)) (ordered (S n) (Metadata t))))) /\
  item_ok (the_tx (with_body t (aux_body n t)) (ordered (S n) (Metadata t))).
Proof.
  intros RO HO (HB & HW & HM). unfold tx_bytes, after_aux. rewrite calc_aux_spec by auto.
  assert (K : tx_ok (with_body t (aux_body n t))) by (split; [apply aux_body_ok; auto | split; auto]).
  destruct (tx_marshal_spec (S n) _ RO K) as [E I]. rewrite E. auto.
Qed.

Lemma tx_hash_spec n t : runtime_order -> hash_ok -> tx_ok t ->
  tx_hash n t = (aux_body n t, Ok (blake2b256 (cbor (the_body (aux_body n t))))).
Proof.
  intros RO HO (HB & HW & HM). unfold tx_hash, after_aux. rewrite calc_aux_spec by auto. cbn [Body with_body].
  rewrite body_marshal_spec by (apply aux_body_ok; auto). reflexivity.
Qed.

Lemma aux_body_free n m t : runtime_order -> meta_free (Metadata t) -> aux_body n t = aux_body m t.
Proof.
  intros RO H. unfold aux_body. destruct (Metadata t) as [x |]; auto. cbn [meta_free] in H.
  rewrite !(order_free_perm x H _ (RO _ x)). reflexivity.
Qed.

Lemma aux_body_idem n m t : runtime_order -> meta_free (Metadata t) -> aux_body n (with_body t (aux_body m t)) = aux_body m t.
Proof.
  intros RO H. unfold aux_body. destruct (Metadata t) as [x |] eqn:E; cbn [Metadata with_body]; rewrite ?E; auto. cbn [meta_free] in H.
  rewrite !(order_free_perm x H _ (RO _ x)). reflexivity.
Qed.

(** ** Fee *)
Lemma u64_add_r a b : u64 (a + u64 b) = u64 (a + b).
Proof. unfold u64. rewrite Zplus_mod_idemp_r. reflexivity. Qed.
Lemma u64_add_l a b : u64 (u64 a + b) = u64 (a + b).
Proof. unfold u64. rewrite Zplus_mod_idemp_l. reflexivity. Qed.
Lemma u64_sub_l a b : u64 (u64 a - b) = u64 (a - b).
Proof. unfold u64. rewrite Zminus_mod_idemp_l. reflexivity. Qed.
Lemma u64_sub_r a b : u64 (a - u64 b) = u64 (a - b).
Proof. unfold u64. rewrite Zminus_mod_idemp_r. reflexivity. Qed.

Lemma tx_fee_bytes n l t : tx_fee n l t =
  (fst (tx_bytes n t), do b <- snd (tx_bytes n t); Ok (u64 (TxFeeFixed l + TxFeePerByte l * zlen b))).
Proof.
  unfold tx_fee, tx_bytes, after_aux. destruct (calc_aux n t) as [b | |]; auto. cbn [fst snd]. f_equal.
  destruct (tx_marshal (S n) (with_body t b)); auto. cbn [bind]. rewrite u64_add_r. reflexivity.
Qed.

(** ** Sizes *)
Lemma head_size t n : 0 <= n -> zlen (head t n) = uint_size n.
Proof.
  intros H. unfold head, uint_size, zlen. repeat match goal with |- context [if ?b then _ else _] => destruct b end; cbn [length]; rewrite ?be_length; lia.
Qed.
Lemma uint_size_range n : 1 <= uint_size n <= 9.
Proof. unfold uint_size. repeat match goal with |- context [if ?b then _ else _] => destruct b end; lia. Qed.
Lemma uint_size_mono a b : a <= b -> uint_size a <= uint_size b.
Proof.
  intros H. unfold uint_size.
  destruct (Z.ltb_spec a 24), (Z.ltb_spec b 24), (Z.ltb_spec a (2 ^ 8)), (Z.ltb_spec b (2 ^ 8)), (Z.ltb_spec a (2 ^ 16)), (Z.ltb_spec b (2 ^ 16)),
    (Z.ltb_spec a (2 ^ 32)), (Z.ltb_spec b (2 ^ 32)); lia.
Qed.

Definition sum_size (l : list item) : Z := zlen (flat_map cbor l).
Lemma sum_size_app l l' : sum_size (l ++ l') = sum_size l + sum_size l'.
Proof. unfold sum_size. rewrite flat_map_app. apply zlen_app. Qed.

Definition ttl_size (x : Z) : Z := if x =? 0 then 0 else 1 + uint_size x.
Definition aux_size (a : bytes) : Z := match a with [] => 0 | _ => 1 + uint_size (zlen a) + zlen a end.
Definition body_size (b : TxBody) : Z :=
  1 + (1 + uint_size (zlen (Inputs b)) + sum_size (map input_item (map in_pair (Inputs b))))
    + (1 + uint_size (zlen (Outputs b)) + sum_size (map out_item (Outputs b)))
    + (1 + uint_size (Fee b)) + ttl_size (TTL b) + aux_size (AuxHash b).

Lemma body_size_spec b : 0 <= Fee b -> 0 <= TTL b -> zlen (cbor (the_body b)) = body_size b.
Proof.
  intros F T. unfold the_body, body_item, body_size, ttl_size, aux_size, sum_size. pose proof (zlen_nonneg (Inputs b)). pose proof (zlen_nonneg (Outputs b)).
  destruct (TTL b =? 0), (AuxHash b) as [| x a]; cbn [app cbor flat_map length];
    rewrite ?map_length, ?app_nil_r, ?zlen_app, ?head_size by lia; fold (zlen (Inputs b)); fold (zlen (Outputs b));
    try change (Z.of_nat (S (length a))) with (zlen (x :: a));
    repeat match goal with |- context [uint_size (Z.of_nat ?k)] => let v := eval cbv in (uint_size (Z.of_nat k)) in change (uint_size (Z.of_nat k)) with v end;
    repeat match goal with |- context [zlen (head ?t (Z.pos ?k))] => let v := eval cbv in (zlen (head t (Z.pos k))) in change (zlen (head t (Z.pos k))) with v end;
    repeat match goal with |- context [uint_size ?k] => match k with Z0 => idtac | Zpos _ => idtac end; let v := eval cbv in (uint_size k) in change (uint_size k) with v end;
    lia.
Qed.

Lemma the_tx_size t m : zlen (cbor (the_tx t m)) =
  2 + zlen (cbor (the_body (Body t))) + zlen (cbor (witness_item (map wit_pair (Witness t)))) + zlen (cbor (the_meta m)).
Proof.
  unfold the_tx, tx_item. cbn [cbor flat_map length]. rewrite app_nil_r, !zlen_app. destruct (Valid t); change (zlen (head 4 (Z.of_nat 4))) with 1;
    cbn [bool_item cbor]; [change (zlen (head 7 21)) with 1 | change (zlen (head 7 20)) with 1]; lia.
Qed.

Lemma meta_size n n' m : runtime_order -> meta_ok m -> zlen (cbor (the_meta (ordered n m))) = zlen (cbor (the_meta (ordered n' m))).
Proof.
  intros RO H. destruct m as [m |]; auto. cbn [ordered option_map the_meta meta_ok] in *. unfold zlen.
  rewrite (proj2 (md_perm_ok m H _ (RO n m))), (proj2 (md_perm_ok m H _ (RO n' m))). reflexivity.
Qed.

Lemma witness_size ws : (forall w, In w ws -> length (VKey w) = 32%nat /\ length (Signature w) = 64%nat) -> ws <> [] ->
  zlen (cbor (witness_item (map wit_pair ws))) = 2 + uint_size (zlen ws) + 101 * zlen ws.
Proof.
  intros H N.
  assert (G : zlen (flat_map cbor (map vkey_item (map wit_pair ws))) = 101 * zlen ws).
  { clear N. induction ws as [| w ws IH]; [reflexivity |]. cbn [map flat_map]. rewrite zlen_app, IH, zlen_cons by (intros; apply H; right; auto).
    destruct (H w (or_introl eq_refl)) as [H1 H2]. unfold vkey_item, wit_pair. cbn [fst snd cbor flat_map length]. rewrite H1, H2, app_nil_r, !zlen_app.
    change (zlen (head 4 (Z.of_nat 2))) with 1. change (zlen (head 2 (Z.of_nat 32))) with 2. change (zlen (head 2 (Z.of_nat 64))) with 2.
    unfold zlen at 1 2. rewrite H1, H2. lia. }
  destruct ws as [| w ws]; [contradiction |].
  assert (E : witness_item (map wit_pair (w :: ws)) = Map [(Uint 0, Arr (map vkey_item (map wit_pair (w :: ws))))]) by reflexivity. rewrite E. clear E.
  remember (w :: ws) as l. cbn [cbor flat_map length]. rewrite app_nil_r, !zlen_app, G, !map_length, (head_size 4) by lia. fold (zlen l).
  change (zlen (head 5 (Z.of_nat 1))) with 1. change (zlen (head 0 0)) with 1. lia.
Qed.
End Methods.

(** ** Totals *)
Lemma fold_u64 {A} (f : A -> Z) l : forall a, u64 (fold_left (fun x i => u64 (x + f i)) l (u64 a)) = u64 (a + fold_right Z.add 0 (map f l)) /\
  fold_left (fun x i => u64 (x + f i)) l (u64 a) = u64 (a + fold_right Z.add 0 (map f l)).
Proof.
  induction l as [| i l IH]; intros a; cbn [fold_left map fold_right].
  - rewrite Z.add_0_r. split; [apply Z.mod_mod; lia | reflexivity].
  - rewrite u64_add_l. replace (a + (f i + fold_right Z.add 0 (map f l))) with (a + f i + fold_right Z.add 0 (map f l)) by lia. apply IH.
Qed.
Lemma total_inputs_sum b : total_inputs b = u64 (sum_in b).
Proof. unfold total_inputs. change 0 with (u64 0) at 1. rewrite (proj2 (fold_u64 InAmount (Inputs b) 0)). reflexivity. Qed.
Lemma total_outputs_sum b : total_outputs b = u64 (sum_out b).
Proof. unfold total_outputs. change 0 with (u64 0) at 1. rewrite (proj2 (fold_u64 OutAmount (Outputs b) 0)). reflexivity. Qed.
Lemma totals_diff b : u64 (total_inputs b - total_outputs b) = u64 (sum_in b - sum_out b).
Proof. rewrite total_inputs_sum, total_outputs_sum, u64_sub_l, u64_sub_r. reflexivity. Qed.
Lemma change_amount_sum b : change_amount b = u64 (sum_in b - sum_out b - Fee b).
Proof. unfold change_amount. rewrite totals_diff, u64_sub_l. reflexivity. Qed.
Lemma placeholder_amount_sum b : placeholder_amount b = u64 (sum_in b - sum_out b - 200000).
Proof. unfold placeholder_amount. rewrite totals_diff, u64_sub_l. reflexivity. Qed.
Lemma sum_out_app b l : sum_out (add_outputs b l) = sum_out b + fold_right Z.add 0 (map OutAmount l).
Proof.
  unfold sum_out. cbn [Outputs add_outputs]. rewrite map_app. induction (map OutAmount (Outputs b)) as [| x r IH]; cbn [app fold_right]; lia.
Qed.
