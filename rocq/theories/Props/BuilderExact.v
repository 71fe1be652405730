(** C28, C29, C32: exactly where the builder claims that are false hold and fail. *)
From Verif.Model Require Import Base Bech32 Hex Cbor Network Address Tx Builder.
From Verif.Spec Require Import CborSpec TxSpec MdSpec.
From Verif.Proofs Require Import Util CborFacts AddressFacts AddressParse TxFacts HeapFacts HeapProps AuxFacts FeeFacts.
From Verif.Props Require Import Shelley Tx Builder.

(** C28. The whole transaction after AddChangeIfNeeded: one output is always added, with what is left over modulo 2^64, so no output
    is added never holds; besides, MinFee() leaves its witness of zeros (C29). *)
Theorem C28_exact : forall (C : TxCrypto) (MO : MapOrder) w b a, reachable w -> (b < nbuilders w)%nat ->
  let old := builder_tx w b in let fee := snd (run_min_fee w b) in
  builder_tx (add_change_if_needed w b a) b =
  {| Body := {| Inputs := Inputs (Body old);
                Outputs := Outputs (Body old) ++ [{| OutAddress := a; OutAmount := (sum_in (Body old) - sum_out (Body old) - fee) mod 2 ^ 64 |}];
                Fee := fee; TTL := TTL (Body old); AuxHash := AuxHash (Body old) |};
     Witness := match Witness old with [] => [{| VKey := repeat 0 32; Signature := repeat 0 64 |}] | ws => ws end;
     Valid := Valid old; Metadata := Metadata old |}.
Proof.
  intros C MO w b a R Hb old fee. rewrite (add_change_tx w b a (reachable_inv w R) Hb), mf_wit_eq. unfold fee. rewrite run_min_fee_eq. cbn [snd]. fold old.
  unfold add_change, add_outputs, set_fee. cbn [Inputs Outputs Fee TTL AuxHash]. rewrite change_amount_sum. cbn [Fee].
  change (sum_in {| Inputs := Inputs (Body old); Outputs := Outputs (Body old); Fee := mf w b; TTL := TTL (Body old); AuxHash := AuxHash (Body old) |}) with (sum_in (Body old)).
  change (sum_out {| Inputs := Inputs (Body old); Outputs := Outputs (Body old); Fee := mf w b; TTL := TTL (Body old); AuxHash := AuxHash (Body old) |}) with (sum_out (Body old)).
  reflexivity.
Qed.
Print Assumptions C28_exact.

(** C29. The whole transaction after MinFee(): as before, but for a witness of zeros where there was none. *)
Theorem C29_exact : forall (C : TxCrypto) (MO : MapOrder) w b, reachable w -> (b < nbuilders w)%nat ->
  let old := builder_tx w b in let new := builder_tx (fst (run_min_fee w b)) b in
  new = {| Body := Body old; Witness := match Witness old with [] => [{| VKey := repeat 0 32; Signature := repeat 0 64 |}] | ws => ws end;
           Valid := Valid old; Metadata := Metadata old |} /\
  (new = old <-> Witness old <> []).
Proof.
  intros C MO w b R Hb old new. assert (E : new = with_witness old (fee_wit old)) by (unfold new; rewrite (min_fee_tx w b (reachable_inv w R) Hb), mf_wit_eq; reflexivity).
  clearbody new. subst new. split; [reflexivity |]. unfold fee_wit. destruct old as [bd ws v m]. cbn. destruct ws as [| x ws].
  - split; [discriminate | congruence].
  - split; [discriminate | reflexivity].
Qed.
Print Assumptions C29_exact.
(** With the runtime's iteration order aside, the bytes are the same exactly when there was a witness before. *)
Theorem C29_bytes : forall (C : TxCrypto) (MO : MapOrder) w b n, runtime_order -> hash_ok -> reachable w -> (b < nbuilders w)%nat ->
  let old := builder_tx w b in let new := builder_tx (fst (run_min_fee w b)) b in
  tx_ok old -> (snd (tx_bytes n new) = snd (tx_bytes n old) <-> Witness old <> []).
Proof.
  intros C MO w b n RO HO R Hb old new K. split.
  - intros Q W. destruct (C29_refuted C MO w b n n RO HO R Hb K W) as (_ & s & s' & E & E' & N). fold old in E. fold new in E'. rewrite E, E' in Q. apply N. congruence.
  - intros W. apply (proj2 (C29_exact C MO w b R Hb)) in W. fold new old in W. rewrite W. reflexivity.
Qed.
Print Assumptions C29_bytes.
Section Ex29.
#[local] Existing Instance ex_crypto.
#[local] Existing Instance id_order.
Example C29_exact_example : let w := run empty_world (firstn 5 (ex_history ex_keys 5000000 1000000)) in
  let w1 := fst (run_min_fee w 0) in Witness (builder_tx w 0) = [] /\ Witness (builder_tx w1 0) <> [].
Proof. split; [reflexivity | vm_compute; discriminate]. Qed.
End Ex29.

(** C32. What Bytes() puts in the body and next to it, for all orders: the hash is that of the metadata as met by the first
    marshalling, the metadata are as met by the second. So they fit exactly when both are encoded alike, or collide. *)
Theorem C32_exact : forall (C : TxCrypto) (MO : MapOrder) n t m, runtime_order -> hash_ok -> tx_ok t -> Metadata t = Some m ->
  let one := cbor (md_item (map_order n m)) in let two := cbor (md_item (map_order (S n) m)) in
  exists body ws v, snd (tx_bytes n t) = Ok (cbor (tx_item (the_body body) ws v (md_item (map_order (S n) m)))) /\
    item_ok (tx_item (the_body body) ws v (md_item (map_order (S n) m))) /\ fst (tx_bytes n t) = body /\
    AuxHash body = blake2b256 one /\ (AuxHash body = blake2b256 two <-> one = two \/ collision one two).
Proof.
  intros C MO n t m RO HO K E one two. destruct (tx_bytes_spec n t RO HO K) as [Q I]. rewrite Q. cbn [fst snd]. unfold the_tx in *. rewrite E in *. cbn [option_map] in *.
  do 3 eexists. split; [reflexivity |]. split; [exact I |]. split; [reflexivity |]. unfold aux_body. rewrite E. cbn [AuxHash]. fold one two.
  split; [reflexivity |]. split.
  - intros Z. destruct (list_eq_dec Z.eq_dec one two) as [D | D]; [left; exact D | right; split; assumption].
  - intros [-> | [_ Z]]; [reflexivity | exact Z].
Qed.
Print Assumptions C32_exact.

(** ** C35 *)
Lemma slice_hit (arr : list bytes) off len i k : (off <= i < off + len)%nat -> (off + len <= length arr)%nat ->
  firstn len (skipn off (upd arr i k)) = firstn (i - off) (firstn len (skipn off arr)) ++ k :: skipn (S (i - off)) (firstn len (skipn off arr)).
Proof.
  revert arr i. induction off as [| off IH]; intros arr i H L.
  - cbn [skipn Nat.add] in *. rewrite Nat.sub_0_r. revert arr i H L. induction len as [| len IH]; intros [| x arr] [| i] H L; cbn [length] in *; try lia; [reflexivity |].
    cbn [upd firstn app]. rewrite IH by lia. reflexivity.
  - destruct arr as [| x arr], i as [| i]; cbn [length] in *; try lia. cbn [upd skipn]. rewrite IH by lia. reflexivity.
Qed.
Lemma slice_before (arr : list bytes) off len i k : (i < off)%nat -> firstn len (skipn off (upd arr i k)) = firstn len (skipn off arr).
Proof.
  revert arr i. induction off as [| off IH]; intros arr i H; [lia |]. destruct arr as [| x arr], i as [| i]; try reflexivity. cbn [upd skipn]. apply IH. lia.
Qed.
(** Full statement: no operation on one builder changes another builder's keys. Exactly: only Sign changes keys; besides appending to
    the builder's own, it replaces the key of every builder whose slice of the same array covers the place behind the first one's. *)
Theorem C35_keys_exact : forall (C : TxCrypto) (MO : MapOrder) w b, reachable w -> (b < nbuilders w)%nat ->
  (forall o, valid_op w o -> (forall b' k, o <> OSign b' k) -> builder_keys (step w o) b = builder_keys w b) /\
  (forall k, builder_keys (step w (OSign b k)) b = builder_keys w b ++ [k]) /\
  (forall b' k, (b' < nbuilders w)%nat -> b' <> b ->
    let s := b_keys (bld w b) in let s' := b_keys (bld w b') in let p := (s_off s' + s_len s')%nat in
    let hit := s_arr s = s_arr s' /\ (s_off s <= p < s_off s + s_len s)%nat in let i := (p - s_off s)%nat in
    (hit -> builder_keys (step w (OSign b' k)) b = firstn i (builder_keys w b) ++ k :: skipn (S i) (builder_keys w b)) /\
    (~ hit -> builder_keys (step w (OSign b' k)) b = builder_keys w b)).
Proof.
  intros C MO w b R Hb. pose proof (reachable_inv w R) as I. split; [| split].
  - intros o V N. apply keys_other; auto.
  - intros k. apply keys_sign; auto.
  - intros b' k Hb' N s s' p hit i. cbn [step].
    destruct (inv_builders w I b Hb) as (_ & _ & [K1 K2]). destruct (inv_builders w I b' Hb') as (_ & _ & [J1 J2]). fold s in K1, K2. fold s' in J1, J2.
    destruct (Nat.eq_dec (s_arr s) (s_arr s')) as [A | A].
    + unfold sign_with, builder_keys, slice_keys. fold s'. fold p. rewrite A in K2. destruct (Nat.ltb_spec p (length (nth (s_arr s') (w_arrays w) []))) as [L | L].
      * unfold bld. cbn [put_builder put_array w_builders w_arrays]. rewrite nth_upd_other by auto. fold (bld w b). fold (bld w b'). fold s s'. rewrite A, nth_upd_same by exact J1. split.
        -- intros [_ H]. apply slice_hit; auto.
        -- intros H. destruct (Nat.lt_ge_cases p (s_off s)) as [Q | Q]; [apply slice_before; exact Q |]. apply slice_keep.
           destruct (Nat.le_gt_cases (s_off s + s_len s) p) as [Q' | Q']; [exact Q' | exfalso; apply H; split; [exact A | lia]].
      * unfold bld. cbn [put_builder new_array w_builders w_arrays]. rewrite nth_upd_other by auto. fold (bld w b). fold (bld w b'). fold s s'. rewrite nth_app_l by exact K1. split; [intros [_ H]; exfalso; lia | reflexivity].
    + split; [intros [H _]; contradiction | intros _]. apply keys_sign_other; auto.
Qed.
Print Assumptions C35_keys_exact.

(** ** C26 without bounds on the fee parameters, the sums or the metadata *)
(** The bytes that the built transaction has more than the one MinFee measured, apart from the width of the fee. A hash without metadata
    is not measured. *)
Definition excess_all (t : Tx) (a : Address) (change keys : Z) : Z :=
  let b := Body t in let n := zlen (Outputs b) in
  (if (sum_in b - sum_out b) mod 2 ^ 64 =? 0 then uint_size (n + 1) - uint_size n + 1 + zlen (cbor (addr_item a)) + uint_size change
   else zlen (cbor (addr_item a)) - 59 + uint_size change - uint_size ((sum_in b - sum_out b - 200000) mod 2 ^ 64))
  + witnesses_size keys - witnesses_size (Z.max 1 (zlen (Witness t)))
  + match Metadata t, AuxHash b with None, (_ :: _) as h => 1 + uint_size (zlen h) + zlen h | _, _ => 0 end.
(** What MinFee measures, with [x] in the fee field *)
Definition measured (l : LinearFee) (T t : Tx) (a : Address) (keys size x : Z) : Z :=
  let change := (sum_in (Body t) - sum_out (Body t) - Fee (Body T)) mod 2 ^ 64 in
  size - excess_all t a change keys - uint_size (Fee (Body T)) + uint_size x.
(** The fee is the linear formula, applied twice, in the arithmetic of 64 bits. *)
Theorem C26_all : forall (C : TxCrypto) (MO : MapOrder) w b a w2 t2 n s, runtime_order -> hash_ok -> key_sizes -> reachable w -> (b < nbuilders w)%nat ->
  let t := builder_tx w b in let l := b_fees (bld w b) in let T := load w2 t2 in let keys := zlen (builder_keys w b) in
  tx_ok t -> zlen (Outputs (Body t)) + 1 < 2 ^ 64 -> (forall c, 0 <= c < 2 ^ 64 -> out_ok {| OutAddress := a; OutAmount := c |}) ->
  build (add_change_if_needed w b a) b = (w2, Ok t2) -> snd (tx_bytes n T) = Ok s ->
  (forall x, In x (Witness t) -> length (VKey x) = 32%nat /\ length (Signature x) = 64%nat) -> keys < 2 ^ 64 ->
  let pass x := (TxFeeFixed l + TxFeePerByte l * measured l T t a keys (zlen s) x) mod 2 ^ 64 in
  Fee (Body T) = pass (pass (Fee (Body t))).
Proof.
  intros C MO w b a w2 t2 n s RO HO KS R Hb t l T keys K L Ha E Es WS LK pass.
  destruct (change_then_build w b a w2 t2 RO HO KS (reachable_inv w R) Hb K L LK Ha E) as (c & Ec & E1 & E2 & E3 & E4 & E5 & E6 & W1 & W2 & KT).
  cbv zeta in *. fold t l T in Ec, E1, E2, E3, E4, E5, E6, W1, W2, KT.
  destruct (tx_bytes_size n T RO HO KT) as (s' & Es' & Sz). rewrite Es in Es'. apply Ok_inj in Es'. subst s'.
  set (f1 := fee_for l t (Fee (Body t))) in *. set (fee := fee_for l t f1) in *.
  assert (Hc0 : 0 <= c) by (rewrite Ec; apply u64_range).
  assert (NT : (total_inputs (Body t) =? total_outputs (Body t)) = ((sum_in (Body t) - sum_out (Body t)) mod 2 ^ 64 =? 0)).
  { rewrite total_inputs_sum, total_outputs_sum. unfold u64. rewrite Zminus_mod. pose proof (Z.mod_pos_bound (sum_in (Body t)) (2 ^ 64) ltac:(lia)) as Q1. pose proof (Z.mod_pos_bound (sum_out (Body t)) (2 ^ 64) ltac:(lia)) as Q2.
    set (x := sum_in (Body t) mod 2 ^ 64) in *. set (y := sum_out (Body t) mod 2 ^ 64) in *. clearbody x y. destruct (Z.eqb_spec x y) as [-> | N]; [rewrite Z.sub_diag; reflexivity |].
    symmetry. apply Z.eqb_neq. intros Q. apply Z.mod_divide in Q; [|lia]. destruct Q as [q Q]. nia. }
  destruct (fee_wit_std t WS) as (V1 & V2 & V3).
  assert (WT : wit_size (Witness T) = witnesses_size keys).
  { unfold keys. replace (zlen (builder_keys w b)) with (zlen (Witness T)) by (unfold zlen; rewrite W2; reflexivity). revert W1. destruct (Witness T) as [| x r]; intros W1; [reflexivity |].
    rewrite wit_size_std by (exact W1 || discriminate). unfold witnesses_size. destruct (Z.eqb_spec (zlen (x :: r)) 0) as [Q | _]; [unfold zlen in Q; cbn [length] in Q; lia | reflexivity]. }
  assert (WF : wit_size (fee_wit t) = witnesses_size (Z.max 1 (zlen (Witness t)))).
  { rewrite (wit_size_std _ V1 V2), V3. unfold witnesses_size. replace (Z.max 1 (zlen (Witness t)) =? 0) with false by lia. reflexivity. }
  assert (M0 : match Metadata t with Some _ => 0 | None => aux_size (AuxHash (Body t)) end = match Metadata t, AuxHash (Body t) with None, (_ :: _) as h => 1 + uint_size (zlen h) + zlen h | _, _ => 0 end)
    by (destruct (Metadata t); [reflexivity |]; unfold aux_size; destruct (AuxHash (Body t)); reflexivity).
  assert (Hc : (sum_in (Body t) - sum_out (Body t) - Fee (Body T)) mod 2 ^ 64 = c) by (rewrite Ec, E5; reflexivity).
  assert (D : forall x, measured l T t a keys (zlen s) x = tx_size (fee_tx t x)).
  { intros x. unfold measured. cbv zeta. rewrite Hc. rewrite Sz. pose proof (size_diff t T x c a Hc0 E1 E2 E3 E4 E6) as SD. rewrite NT, WT, WF, M0, placeholder_amount_sum in SD. unfold excess_all. cbv zeta. unfold u64 in SD.
    set (k := match Metadata t with Some _ => _ | None => _ end) in *. clearbody k. destruct ((sum_in (Body t) - sum_out (Body t)) mod 2 ^ 64 =? 0); lia. }
  unfold pass. rewrite (D (Fee (Body t))). change ((TxFeeFixed l + TxFeePerByte l * tx_size (fee_tx t (Fee (Body t)))) mod 2 ^ 64) with f1. rewrite (D f1). exact E5.
Qed.
Print Assumptions C26_all.
(** So, for all fee parameters for which the second pass does not overflow, how far the fee is off, and when it is enough: *)
Theorem C26_enough : forall (C : TxCrypto) (MO : MapOrder) w b a w2 t2 n s, runtime_order -> hash_ok -> key_sizes -> reachable w -> (b < nbuilders w)%nat ->
  let t := builder_tx w b in let l := b_fees (bld w b) in let T := load w2 t2 in let keys := zlen (builder_keys w b) in
  tx_ok t -> zlen (Outputs (Body t)) + 1 < 2 ^ 64 -> (forall c, 0 <= c < 2 ^ 64 -> out_ok {| OutAddress := a; OutAmount := c |}) ->
  build (add_change_if_needed w b a) b = (w2, Ok t2) -> snd (tx_bytes n T) = Ok s ->
  (forall x, In x (Witness t) -> length (VKey x) = 32%nat /\ length (Signature x) = 64%nat) -> keys < 2 ^ 64 ->
  let pass1 := (TxFeeFixed l + TxFeePerByte l * measured l T t a keys (zlen s) (Fee (Body t))) mod 2 ^ 64 in
  0 <= TxFeePerByte l -> 0 <= TxFeeFixed l + TxFeePerByte l * measured l T t a keys (zlen s) pass1 < 2 ^ 64 ->
  let change := (sum_in (Body t) - sum_out (Body t) - Fee (Body T)) mod 2 ^ 64 in
  let more := excess_all t a change keys + uint_size (Fee (Body T)) - uint_size pass1 in
  TxFeeFixed l + TxFeePerByte l * zlen s = Fee (Body T) + TxFeePerByte l * more /\
  (TxFeeFixed l + TxFeePerByte l * zlen s <= Fee (Body T) <-> TxFeePerByte l = 0 \/ more <= 0).
Proof.
  intros C MO w b a w2 t2 n s RO HO KS R Hb t l T keys K L Ha E Es WS LK pass1 F NO change more.
  pose proof (C26_all C MO w b a w2 t2 n s RO HO KS R Hb K L Ha E Es WS LK) as Q. cbv beta zeta in Q. fold t l T keys pass1 in Q. rewrite Z.mod_small in Q by exact NO. clear NO.
  assert (EQ : TxFeeFixed l + TxFeePerByte l * zlen s = Fee (Body T) + TxFeePerByte l * more). { rewrite Q at 1. unfold measured, more. cbv zeta. fold change. ring. }
  split; [exact EQ |]. rewrite EQ. clearbody more. clear - F. split; [|intros [-> | ?]; nia]. intros Q. destruct (Z.eq_dec (TxFeePerByte l) 0) as [-> | N]; [left; reflexivity | right; nia].
Qed.
Print Assumptions C26_enough.
(** A fee that is not enough although everything is measured right: the fee field grew from three to five bytes in the second pass. *)
Section Ex26all.
#[local] Existing Instance ex_crypto.
#[local] Existing Instance id_order.
Definition ex_small_fees : World := run empty_world (firstn 6 (map (fun o => match o with ONewBuilder l k => ONewBuilder {| TxFeePerByte := 1; TxFeeFixed := 65279 |} k | _ => o end) (ex_history [repeat 7 96] 5000000 1000000))).
Example C26_enough_example : let w2 := fst (build (add_change_if_needed ex_small_fees 0 ex_addr) 0) in let T := load w2 1 in let t := builder_tx ex_small_fees 0 in let l := b_fees (bld ex_small_fees 0) in
  let s := the [] (snd (tx_bytes 0 T)) in let pass1 := (TxFeeFixed l + TxFeePerByte l * measured l T t ex_addr 1 (zlen s) (Fee (Body t))) mod 2 ^ 64 in
  pass1 = 65535 /\ Fee (Body T) = 65537 /\ 65279 + zlen s = 65539 /\ excess_all t ex_addr ((5000000 - 1000000 - Fee (Body T)) mod 2 ^ 64) 1 = 0.
Proof. vm_compute. repeat split; reflexivity. Qed.
End Ex26all.
