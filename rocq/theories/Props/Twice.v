(** C101: AddChangeIfNeeded called a second time. *)
From Verif.Model Require Import Base Bech32 Hex Cbor Network Address Tx Builder.
From Verif.Spec Require Import CborSpec TxSpec MdSpec.
From Verif.Proofs Require Import Util CborFacts AddressFacts AddressParse TxFacts HeapFacts HeapProps AuxFacts FeeFacts.
From Verif.Props Require Import Shelley Tx Builder BuilderExact.

(** After a first call that balanced the transaction a second one adds an output with the difference of the two fees modulo 2^64;
    the transaction stays balanced exactly when the second fee is not larger. *)
Theorem C101_exact : forall (C : TxCrypto) (MO : MapOrder) w b a a', reachable w -> (b < nbuilders w)%nat ->
  let w1 := add_change_if_needed w b a in let t1 := Body (builder_tx w1 b) in
  let t2 := Body (builder_tx (add_change_if_needed w1 b a') b) in
  sum_in t1 = sum_out t1 + Fee t1 -> 0 <= Fee t1 < 2 ^ 64 -> 0 <= Fee t2 < 2 ^ 64 ->
  Inputs t2 = Inputs t1 /\ Outputs t2 = Outputs t1 ++ [{| OutAddress := a'; OutAmount := (Fee t1 - Fee t2) mod 2 ^ 64 |}] /\
  (sum_in t2 = sum_out t2 + Fee t2 <-> Fee t2 <= Fee t1) /\ (Fee t1 < Fee t2 -> sum_out t2 + Fee t2 = sum_in t2 + 2 ^ 64).
Proof.
  intros C MO w b a a' R Hb w1 t1 t2 B F1 F2.
  assert (R1 : reachable w1) by (apply (reachable_step w (OAddChange b a)); [exact R | exact Hb]).
  assert (Hb1 : (b < nbuilders w1)%nat) by (unfold w1; rewrite add_change_eq; exact Hb).
  pose proof (C28_exact C MO w1 b a' R1 Hb1) as E. cbv zeta in E. set (f := snd (run_min_fee w1 b)) in *.
  assert (Ef : Fee t2 = f) by (unfold t2; rewrite E; reflexivity).
  pose proof (C27_exact C MO w1 b a' R1 Hb1) as (X1 & X2). cbv zeta in X1, X2. fold t1 t2 in X1, X2.
  assert (EI : Inputs t2 = Inputs t1) by (unfold t2; rewrite E; reflexivity).
  assert (EO : Outputs t2 = Outputs t1 ++ [{| OutAddress := a'; OutAmount := (sum_in t1 - sum_out t1 - f) mod 2 ^ 64 |}]) by (unfold t2; rewrite E; reflexivity).
  split; [exact EI |]. split; [rewrite EO, Ef; do 4 f_equal; lia |]. clear E EO. replace (sum_in t1 - sum_out t1 - Fee t2) with (Fee t1 - Fee t2) in * by lia.
  split; [rewrite X2; lia |]. intros L. replace ((Fee t1 - Fee t2) / 2 ^ 64) with (-1) in X1; [lia |]. apply Z.div_unique with (Fee t1 - Fee t2 + 2 ^ 64); lia.
Qed.
Print Assumptions C101_exact.

Section Grow.
Context {C : TxCrypto} {MO : MapOrder}.
(** What MinFee measures, against the transaction itself. *)
Lemma fee_tx_grow T x : total_inputs (Body T) <> total_outputs (Body T) ->
  tx_size (fee_tx T x) = tx_size T + 60 + uint_size (placeholder_amount (Body T)) + (uint_size (zlen (Outputs (Body T)) + 1) - uint_size (zlen (Outputs (Body T))))
    + (uint_size x - uint_size (Fee (Body T))) + (wit_size (fee_wit T) - wit_size (Witness T))
    - match Metadata T with None => aux_size (AuxHash (Body T)) | Some _ => 0 end.
Proof.
  intros N. unfold tx_size, aux_len. cbn [fee_tx Body Inputs Outputs TTL Fee AuxHash Witness Metadata]. unfold ph_out. destruct (Z.eqb_spec (total_inputs (Body T)) (total_outputs (Body T))) as [Q | _]; [contradiction |].
  rewrite map_app, sum_size_app. cbn [map]. rewrite sum_one, out_size by apply u64_range. rewrite ph_addr_size.
  assert (EL : zlen (Outputs (Body T) ++ [{| OutAddress := placeholder_addr; OutAmount := placeholder_amount (Body T) |}]) = zlen (Outputs (Body T)) + 1) by (unfold zlen; rewrite app_length; cbn; lia). rewrite EL.
  assert (Ez : aux_size [] = 0) by reflexivity. rewrite Ez. destruct (Metadata T); lia.
Qed.
Lemma fee_tx_size_gt T x : 0 < tx_size (fee_tx T x).
Proof.
  unfold tx_size. pose proof (uint_size_range (zlen (Inputs (Body (fee_tx T x))))). pose proof (uint_size_range (zlen (Outputs (Body (fee_tx T x))))).
  pose proof (uint_size_range (Fee (Body (fee_tx T x)))). unfold sum_size, wit_size, meta_len, ttl_size, aux_len, aux_size, zlen in *. pose proof (uint_size_range (TTL (Body (fee_tx T x)))).
  cbn [fee_tx Body AuxHash] in *. destruct (_ =? 0); destruct (Metadata _); lia.
Qed.
End Grow.

(** False: whenever bytes cost anything, the second fee is larger, as the first change output has to be paid for as well; so the second
    change output gets an amount close to 2^64 and the outputs exceed the inputs by 2^64 lovelace. *)
Theorem C101_refuted : forall (C : TxCrypto) (MO : MapOrder) w b a a' n s, runtime_order -> hash_ok -> reachable w -> (b < nbuilders w)%nat ->
  let t := builder_tx w b in let l := b_fees (bld w b) in
  let w1 := add_change_if_needed w b a in let t1 := Body (builder_tx w1 b) in
  let T2 := builder_tx (add_change_if_needed w1 b a') b in
  tx_ok t -> zlen (Outputs (Body t)) + 2 < 2 ^ 64 -> 15 <= zlen (cbor (addr_item a)) ->
  (forall c, 0 <= c < 2 ^ 64 -> out_ok {| OutAddress := a; OutAmount := c |} /\ out_ok {| OutAddress := a'; OutAmount := c |}) ->
  0 <= sum_in (Body t) < 2 ^ 64 -> 0 <= sum_out (Body t) -> sum_in t1 = sum_out t1 + Fee t1 ->
  snd (tx_bytes n T2) = Ok s -> 0 <= TxFeeFixed l -> 0 < TxFeePerByte l -> TxFeeFixed l + TxFeePerByte l * (zlen s + 100) < 2 ^ 64 ->
  Fee t1 < Fee (Body T2) /\ Outputs (Body T2) = Outputs t1 ++ [{| OutAddress := a'; OutAmount := 2 ^ 64 - (Fee (Body T2) - Fee t1) |}] /\
  sum_out (Body T2) + Fee (Body T2) = sum_in (Body T2) + 2 ^ 64.
Proof.
  intros C MO w b a a' n s RO HO R Hb t l w1 t1 T2 K L LA Ha HI HSO B Es F1 F2 F3.
  assert (R1 : reachable w1) by (apply (reachable_step w (OAddChange b a)); [exact R | exact Hb]).
  assert (Hb1 : (b < nbuilders w1)%nat) by (unfold w1; rewrite add_change_eq; exact Hb).
  pose proof (C28_exact C MO w b a R Hb) as E1. pose proof (C28_exact C MO w1 b a' R1 Hb1) as E2. cbv zeta in E1, E2. fold t w1 in E1. fold T2 in E2.
  assert (MF1 : snd (run_min_fee w b) = fee_for l t (fee_for l t (Fee (Body t)))) by (rewrite run_min_fee_eq; cbn [snd]; unfold mf; fold t; rewrite (min_fee_spec _ _ t RO HO K ltac:(lia)); reflexivity).
  rewrite MF1 in E1. clear MF1. set (x1 := fee_for l t (Fee (Body t))) in *. set (f1 := fee_for l t x1) in *. set (T1 := builder_tx w1 b) in *.
  assert (WT1 : Witness T1 = fee_wit t) by (rewrite E1; reflexivity).
  assert (Z1 : 0 <= f1 < 2 ^ 64) by apply u64_range.
  assert (K1 : tx_ok T1 /\ zlen (Outputs (Body T1)) = zlen (Outputs (Body t)) + 1).
  { split; [|rewrite E1; cbn [Body Outputs]; unfold zlen; rewrite app_length; cbn [length]; lia].
    destruct K as ((B1 & B2 & B3 & B4 & B5 & B6 & B7 & B8) & W & M). split; [| split; [rewrite WT1; apply fee_wit_ok; exact W | rewrite E1; exact M]]. rewrite E1. cbn [Body].
    split; [exact B1 |]. split; [apply Forall_app; split; [exact B2 | constructor; [| constructor]; apply Ha, u64_range] |]. split; [exact B3 |].
    split; [| split; [exact Z1 |]; split; [exact B6 |]; split; [exact B7 | exact B8]]. cbn [Outputs]. unfold zlen in *. rewrite app_length. cbn [length]. lia. }
  destruct K1 as [K1 L1]. assert (BL : bld w1 b = bld w b) by (unfold w1; rewrite bld_add_change; reflexivity).
  assert (MF2 : snd (run_min_fee w1 b) = fee_for l T1 (fee_for l T1 f1)).
  { rewrite run_min_fee_eq. cbn [snd]. unfold mf. fold T1. rewrite (min_fee_spec _ _ T1 RO HO K1 ltac:(lia)), BL. cbn [fst]. fold l. replace (Fee (Body T1)) with f1 by (rewrite E1; reflexivity). reflexivity. }
  rewrite MF2 in E2. clear MF2. set (x2 := fee_for l T1 f1) in *. set (f2 := fee_for l T1 x2) in *. assert (Z2 : 0 <= f2 < 2 ^ 64) by apply u64_range.
  assert (EF1 : Fee t1 = f1) by (unfold t1; rewrite E1; reflexivity). assert (EF2 : Fee (Body T2) = f2) by (rewrite E2; reflexivity).
  set (c := (sum_in (Body t) - sum_out (Body t) - f1) mod 2 ^ 64) in *. assert (Hc : 0 <= c < 2 ^ 64) by (apply Z.mod_pos_bound; lia).
  assert (SI : sum_in t1 = sum_in (Body t)) by (unfold t1; rewrite E1; reflexivity).
  assert (SO : sum_out t1 = sum_out (Body t) + c) by (unfold t1; rewrite E1; unfold sum_out; cbn [Body Outputs]; rewrite map_app, fold_right_app; cbn [map fold_right OutAmount]; rewrite Z.add_0_r; generalize (map OutAmount (Outputs (Body t))); clear; intros q; induction q as [| x q IH]; cbn [fold_right]; lia).
  (* the second transaction and what was measured *)
  assert (K2 : tx_ok T2).
  { destruct K1 as ((B1 & B2 & B3 & B4 & B5 & B6 & B7 & B8) & W & M). rewrite E2. split; [| split; [apply fee_wit_ok; exact W | exact M]]. cbn [Body].
    split; [exact B1 |]. split; [apply Forall_app; split; [exact B2 | constructor; [| constructor]; apply Ha, u64_range] |]. split; [exact B3 |].
    split; [| split; [exact Z2 |]; split; [exact B6 |]; split; [exact B7 | exact B8]]. cbn [Outputs]. unfold zlen in *. rewrite app_length. cbn [length]. lia. }
  destruct (tx_bytes_size n T2 RO HO K2) as (s' & Es' & Sz). rewrite Es in Es'. apply Ok_inj in Es'. subst s'.
  assert (W2 : Witness T2 = Witness T1) by (rewrite E2, WT1; cbn [Witness]; unfold fee_wit; destruct (Witness t); reflexivity).
  assert (FW : fee_wit T1 = Witness T1) by (rewrite WT1; unfold fee_wit at 1; rewrite WT1; unfold fee_wit; destruct (Witness t); reflexivity).
  pose proof (uint_size_range f2) as U1. pose proof (uint_size_range x2) as U2. pose proof (uint_size_range f1) as U3. pose proof (uint_size_range x1) as U4. pose proof (uint_size_range c) as U5.
  pose proof (uint_size_range (placeholder_amount (Body T1))) as U6. pose proof (uint_size_range (placeholder_amount (Body t))) as U7.
  assert (A2 : 0 <= zlen (cbor (addr_item a'))) by (unfold zlen; lia).
  assert (S2 : forall x, tx_size (fee_tx T1 x) <= zlen s + 100).
  { intros x. pose proof (uint_size_range x) as U8. set (c2 := (sum_in (Body T1) - sum_out (Body T1) - f2) mod 2 ^ 64) in *. assert (Hc2 : 0 <= c2 < 2 ^ 64) by (apply Z.mod_pos_bound; lia). pose proof (uint_size_range c2) as U9.
    pose proof (size_diff T1 T2 x c2 a' (proj1 Hc2) ltac:(rewrite E2; reflexivity) ltac:(rewrite E2; reflexivity) ltac:(rewrite E2; reflexivity) ltac:(rewrite E2; reflexivity) ltac:(rewrite E2; reflexivity)) as D.
    rewrite W2, FW, EF2, <- Sz in D. pose proof (uint_size_mono (zlen (Outputs (Body T1))) (zlen (Outputs (Body T1)) + 1) ltac:(lia)) as R6.
    assert (AX : 0 <= match Metadata T1 with Some _ => 0 | None => aux_size (AuxHash (Body T1)) end) by (destruct (Metadata T1); [lia |]; unfold aux_size; destruct (AuxHash (Body T1)); [lia |]; match goal with |- context [uint_size (zlen ?z)] => pose proof (uint_size_range (zlen z)); pose proof (zlen_nonneg z) end; lia).
    destruct (total_inputs (Body T1) =? total_outputs (Body T1)); lia. }
  assert (S0 : forall T x, 0 <= tx_size (fee_tx T x)) by (intros T x; apply fee_tx_size_pos).
  assert (SP : 0 < tx_size (fee_tx T1 x2)) by apply fee_tx_size_gt.
  assert (G2 : f2 = TxFeeFixed l + TxFeePerByte l * tx_size (fee_tx T1 x2)).
  { unfold f2, fee_for. apply Z.mod_small. pose proof (S2 x2). pose proof (S0 T1 x2). assert (0 <= TxFeePerByte l * tx_size (fee_tx T1 x2) <= TxFeePerByte l * (zlen s + 100)) by (split; [apply Z.mul_nonneg_nonneg | apply Z.mul_le_mono_nonneg_l]; lia). lia. }
  assert (LT : f1 < f2).
  { destruct (Z.eq_dec f1 0) as [Q0 | N0]; [assert (0 < TxFeePerByte l * tx_size (fee_tx T1 x2)) by (apply Z.mul_pos_pos; lia); lia |].
    assert (N1 : total_inputs (Body T1) <> total_outputs (Body T1)).
    { rewrite total_inputs_sum, total_outputs_sum. fold t1. unfold u64. rewrite !Z.mod_small by lia. lia. }
    assert (N2 : total_inputs (Body t) <> total_outputs (Body t)).
    { rewrite total_inputs_sum, total_outputs_sum. unfold u64. rewrite !Z.mod_small by lia. lia. }
    pose proof (size_diff t T1 x1 c a (proj1 Hc) ltac:(rewrite E1; reflexivity) ltac:(rewrite E1; reflexivity) ltac:(rewrite E1; reflexivity) ltac:(rewrite E1; reflexivity) ltac:(rewrite E1; reflexivity)) as D1.
    pose proof (fee_tx_grow T1 x2 N1) as D2. rewrite FW in D2. rewrite WT1 in D1. apply Z.eqb_neq in N2. rewrite N2 in D1.
    assert (EM : match Metadata T1 with Some _ => 0 | None => aux_size (AuxHash (Body T1)) end = match Metadata t with Some _ => 0 | None => aux_size (AuxHash (Body t)) end) by (rewrite E1; reflexivity).
    rewrite EM in D2. pose proof (uint_size_mono (zlen (Outputs (Body T1))) (zlen (Outputs (Body T1)) + 1) ltac:(lia)) as R6.
    assert (LS : tx_size (fee_tx t x1) < tx_size (fee_tx T1 x2)) by (generalize dependent (match Metadata t with Some _ => 0 | None => aux_size (AuxHash (Body t)) end); intros; lia).
    assert (P : TxFeePerByte l * tx_size (fee_tx t x1) < TxFeePerByte l * tx_size (fee_tx T1 x2)) by (apply Z.mul_lt_mono_pos_l; lia).
    assert (G1 : f1 = TxFeeFixed l + TxFeePerByte l * tx_size (fee_tx t x1)).
    { unfold f1, fee_for. apply Z.mod_small. pose proof (S0 t x1). assert (0 <= TxFeePerByte l * tx_size (fee_tx t x1)) by (apply Z.mul_nonneg_nonneg; lia). lia. }
    lia. }
  pose proof (C101_exact C MO w b a a' R Hb) as X. cbv zeta in X. fold w1 T1 t1 T2 in X. rewrite EF1, EF2 in *. destruct (X B Z1 Z2) as (_ & X2 & _ & X3).
  split; [exact LT |]. split; [|exact (X3 LT)]. replace (2 ^ 64 - (f2 - f1)) with ((f1 - f2) mod 2 ^ 64); [exact X2 |]. symmetry. apply Z.mod_unique with (-1); lia.
Qed.
Print Assumptions C101_refuted.

Section Ex101.
#[local] Existing Instance ex_crypto.
#[local] Existing Instance id_order.
(** 5 ada in, 1 ada out, one key: the second change output. *)
Example C101_example : let w1 := add_change_if_needed ex_plain 0 ex_addr in let w2 := add_change_if_needed w1 0 ex_addr in
  let t1 := Body (builder_tx w1 0) in let t2 := Body (builder_tx w2 0) in let s := the [] (snd (tx_bytes 0 (builder_tx w2 0))) in
  sum_in t1 = sum_out t1 + Fee t1 /\ 15 <= zlen (cbor (addr_item ex_addr)) /\ 155381 + 44 * (zlen s + 100) < 2 ^ 64 /\
  (Fee t1, Fee t2) = (166821, 169857) /\ map OutAmount (Outputs t2) = [1000000; 3833179; 2 ^ 64 - 3036].
Proof. vm_compute. intuition congruence. Qed.
End Ex101.
