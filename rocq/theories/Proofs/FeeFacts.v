(** Transaction sizes and the minimum fee. *)
From Verif.Model Require Import Base Cbor Network Address Tx Builder.
From Verif.Spec Require Import CborSpec TxSpec MdSpec.
From Verif.Proofs Require Import Util CborFacts TxFacts HeapFacts HeapProps.

Section Fees.
Context {C : TxCrypto} {MO : MapOrder}.

Definition wit_size (ws : list VKeyWitness) : Z := zlen (cbor (witness_item (map wit_pair ws))).
Definition meta_len (m : option md) : Z := zlen (cbor (the_meta m)).
Definition aux_len (t : Tx) : Z := match Metadata t with Some _ => 35 | None => aux_size (AuxHash (Body t)) end.
Definition tx_size (t : Tx) : Z :=
  let b := Body t in
  2 + (1 + (1 + uint_size (zlen (Inputs b)) + sum_size (map input_item (map in_pair (Inputs b))))
         + (1 + uint_size (zlen (Outputs b)) + sum_size (map out_item (Outputs b)))
         + (1 + uint_size (Fee b)) + ttl_size (TTL b) + aux_len t)
    + wit_size (Witness t) + meta_len (Metadata t).

Lemma meta_len_ordered n m : runtime_order -> meta_ok m -> zlen (cbor (the_meta (ordered n m))) = meta_len m.
Proof.
  intros RO K. unfold meta_len. destruct m as [m |]; cbn [ordered option_map the_meta]; [| reflexivity].
  unfold zlen. destruct (md_perm_ok m K (map_order n m) (RO n m)) as [_ ->]. reflexivity.
Qed.

Lemma tx_bytes_size n t : runtime_order -> hash_ok -> tx_ok t -> exists s, snd (tx_bytes n t) = Ok s /\ zlen s = tx_size t.
Proof.
  intros RO HO K. destruct (tx_bytes_spec n t RO HO K) as [E _]. eexists. split; [rewrite E; reflexivity |].
  rewrite the_tx_size. cbn [Body Witness with_body].
  pose proof (aux_body_ok n t HO (proj1 K)) as (_ & _ & _ & _ & AF & AT & _).
  rewrite body_size_spec by lia. rewrite meta_len_ordered by (auto; apply K). unfold tx_size, body_size, wit_size.
  assert (X : aux_size (AuxHash (aux_body n t)) = aux_len t).
  { unfold aux_body, aux_len. destruct (Metadata t) as [m |]; [| reflexivity]. cbn [AuxHash set_aux]. unfold aux_size, zlen.
    pose proof (proj2 (HO (cbor (md_item (map_order n m))))) as L. rewrite L. destruct (blake2b256 (cbor (md_item (map_order n m)))); [discriminate L | reflexivity]. }
  rewrite X. assert (Y : Outputs (aux_body n t) = Outputs (Body t) /\ Inputs (aux_body n t) = Inputs (Body t) /\ Fee (aux_body n t) = Fee (Body t) /\ TTL (aux_body n t) = TTL (Body t))
    by (unfold aux_body; destruct (Metadata t); auto).
  destruct Y as (-> & -> & -> & ->). reflexivity.
Qed.

Lemma tx_fee_size n l t : runtime_order -> hash_ok -> tx_ok t -> tx_fee n l t = (aux_body n t, Ok (u64 (TxFeeFixed l + TxFeePerByte l * tx_size t))).
Proof.
  intros RO HO K. rewrite tx_fee_bytes. destruct (tx_bytes_size n t RO HO K) as (s & Es & <-). rewrite Es. cbn [bind].
  rewrite (proj1 (tx_bytes_spec n t RO HO K)). reflexivity.
Qed.

(** ** MinFee *)
Definition ph_out (b : TxBody) : list TxOutput :=
  if total_inputs b =? total_outputs b then [] else [{| OutAddress := placeholder_addr; OutAmount := placeholder_amount b |}].
Definition fee_wit (t : Tx) : list VKeyWitness := match Witness t with [] => [placeholder_witness] | w => w end.
Definition fee_tx (t : Tx) (x : Z) : Tx :=
  {| Body := {| Inputs := Inputs (Body t); Outputs := Outputs (Body t) ++ ph_out (Body t); Fee := x; TTL := TTL (Body t); AuxHash := [] |};
     Witness := fee_wit t; Valid := true; Metadata := Metadata t |}.
Definition fee_for (l : LinearFee) (t : Tx) (x : Z) : Z := u64 (TxFeeFixed l + TxFeePerByte l * tx_size (fee_tx t x)).

Lemma placeholder_ok x : 0 <= x < 2 ^ 64 -> out_ok {| OutAddress := placeholder_addr; OutAmount := x |}.
Proof.
  intros H. split; [| exact H]. cbn [OutAddress placeholder_addr]. split; [| reflexivity].
  intros b Hb. assert (F : forallb (fun x => (0 <=? x) && (x <? 256)) (addr_bytes placeholder_addr) = true) by (vm_compute; reflexivity).
  rewrite forallb_forall in F. apply F in Hb. lia.
Qed.
Lemma zeros_ok n : all_bytes (repeat 0 n).
Proof. intros b Hb. apply repeat_spec in Hb. subst. lia. Qed.
Lemma fee_wit_ok t : wits_ok (Witness t) -> wits_ok (fee_wit t).
Proof.
  intros H. unfold fee_wit. destruct (Witness t); [| exact H]. split; [| reflexivity]. constructor; [| constructor].
  split; [apply (zeros_ok 32) |]. split; [reflexivity |]. split; [apply (zeros_ok 64) | reflexivity].
Qed.
Lemma u64_range x : 0 <= u64 x < 2 ^ 64.
Proof. apply Z.mod_pos_bound. lia. Qed.
Lemma ph_out_ok b : Forall out_ok (ph_out b).
Proof. unfold ph_out. destruct (_ =? _); constructor; [| constructor]. apply placeholder_ok. apply u64_range. Qed.

Lemma fee_tx_ok t x h : tx_ok t -> zlen (Outputs (Body t)) + 1 < 2 ^ 64 -> 0 <= x < 2 ^ 64 -> all_bytes h -> zlen h < 2 ^ 64 ->
  tx_ok (with_body (fee_tx t x) (set_aux (Body (fee_tx t x)) h)).
Proof.
  intros ((B1 & B2 & B3 & B4 & B5 & B6 & B7 & B8) & W & M) L Hx Hh Lh. split; [| split; [apply fee_wit_ok; exact W | exact M]].
  split; [exact B1 |]. split; [apply Forall_app; split; [exact B2 | apply ph_out_ok] |]. split; [exact B3 |].
  split; [| split; [exact Hx |]; split; [exact B6 |]; split; [exact Hh | exact Lh]].
  cbn [fee_tx Body with_body Outputs set_aux]. unfold zlen in *. rewrite app_length. unfold ph_out. destruct (_ =? _); cbn [length]; lia.
Qed.

Lemma tx_size_aux t h : Metadata t <> None \/ h = AuxHash (Body t) -> tx_size (with_body t (set_aux (Body t) h)) = tx_size t.
Proof. intros H. unfold tx_size, aux_len. cbn [Body with_body Metadata Witness Inputs Outputs Fee TTL set_aux AuxHash]. destruct (Metadata t); [reflexivity |]. destruct H as [H | ->]; [destruct H |]; reflexivity. Qed.

Lemma min_fee_spec n l t : runtime_order -> hash_ok -> tx_ok t -> zlen (Outputs (Body t)) + 1 < 2 ^ 64 ->
  min_fee n l t = (fee_for l t (fee_for l t (Fee (Body t))), fee_wit t).
Proof.
  intros RO HO K L. unfold min_fee.
  set (body0 := {| Inputs := Inputs (Body t); Outputs := Outputs (Body t); Fee := Fee (Body t); TTL := TTL (Body t); AuxHash := [] |}).
  set (feeTx0 := {| Body := body0; Witness := Witness t; Valid := true; Metadata := Metadata t |}).
  rewrite (calc_aux_spec n feeTx0 RO) by apply K.
  set (h := AuxHash (aux_body n feeTx0)).
  assert (Hh : all_bytes h /\ zlen h < 2 ^ 64 /\ (Metadata t = None -> h = [])).
  { unfold h, aux_body. change (Metadata feeTx0) with (Metadata t). destruct (Metadata t) as [m |]; cbn [AuxHash set_aux].
    - destruct (HO (cbor (md_item (map_order n m)))) as [H1 H2]. split; [exact H1 |]. split; [unfold zlen; rewrite H2; reflexivity | discriminate].
    - split; [intros b [] |]. split; [reflexivity | reflexivity]. }
  assert (Eb : aux_body n feeTx0 = set_aux body0 h) by (unfold h, aux_body; change (Metadata feeTx0) with (Metadata t); destruct (Metadata t); reflexivity).
  rewrite Eb.
  assert (E2 : (if total_inputs (Body t) =? total_outputs (Body t) then set_aux body0 h
                else add_outputs (set_aux body0 h) [{| OutAddress := placeholder_addr; OutAmount := placeholder_amount (Body t) |}])
               = set_aux (Body (fee_tx t (Fee (Body t)))) h).
  { unfold fee_tx, ph_out, set_aux, add_outputs. destruct (_ =? _); cbn; rewrite ?app_nil_r; reflexivity. }
  rewrite E2. fold (fee_wit t).
  assert (F : 0 <= Fee (Body t) < 2 ^ 64) by apply K.
  set (T := with_body (fee_tx t (Fee (Body t))) (set_aux (Body (fee_tx t (Fee (Body t)))) h)).
  change {| Body := set_aux (Body (fee_tx t (Fee (Body t)))) h; Witness := fee_wit t; Valid := true; Metadata := Metadata t |} with T.
  assert (S1 : forall x h', (Metadata t = None -> h' = []) -> tx_size (with_body (fee_tx t x) (set_aux (Body (fee_tx t x)) h')) = tx_size (fee_tx t x)).
  { intros x h' Q. apply tx_size_aux. cbn [fee_tx Metadata Body AuxHash]. destruct (Metadata t); [left; discriminate | right; auto]. }
  assert (KT : tx_ok T) by (apply fee_tx_ok; auto; apply Hh).
  rewrite (tx_fee_size (n + 1) l T RO HO KT). cbn [fee_or_zero]. unfold T at 3. rewrite S1 by apply Hh. fold (fee_for l t (Fee (Body t))).
  set (f1 := fee_for l t (Fee (Body t))). assert (R1 : 0 <= f1 < 2 ^ 64) by apply u64_range.
  set (h2 := AuxHash (aux_body (n + 1) T)).
  assert (Hh2 : all_bytes h2 /\ zlen h2 < 2 ^ 64 /\ (Metadata t = None -> h2 = [])).
  { unfold h2, aux_body. change (Metadata T) with (Metadata t). destruct (Metadata t) as [m |]; cbn [AuxHash set_aux].
    - destruct (HO (cbor (md_item (map_order (n + 1) m)))) as [H1 H2]. split; [exact H1 |]. split; [unfold zlen; rewrite H2; reflexivity | discriminate].
    - unfold T. cbn [Body with_body AuxHash set_aux]. exact Hh. }
  assert (E3 : with_body T (set_fee (aux_body (n + 1) T) f1) = with_body (fee_tx t f1) (set_aux (Body (fee_tx t f1)) h2)).
  { unfold h2, aux_body. change (Metadata T) with (Metadata t). destruct (Metadata t); reflexivity. }
  rewrite E3. rewrite (tx_fee_size (n + 3) l _ RO HO) by (apply fee_tx_ok; auto; apply Hh2). cbn [fee_or_zero]. rewrite S1 by apply Hh2. reflexivity.
Qed.

Lemma fee_tx_size_pos t x : 0 <= tx_size (fee_tx t x).
Proof.
  unfold tx_size. pose proof (uint_size_range (zlen (Inputs (Body (fee_tx t x))))). pose proof (uint_size_range (zlen (Outputs (Body (fee_tx t x))))).
  pose proof (uint_size_range (Fee (Body (fee_tx t x)))). unfold sum_size, wit_size, meta_len, ttl_size, aux_len, aux_size, zlen in *. pose proof (uint_size_range (TTL (Body (fee_tx t x)))).
  cbn [fee_tx Body AuxHash] in *. destruct (_ =? 0); destruct (Metadata _); lia.
Qed.

(** ** Sizes of the parts *)
Lemma out_size a x : 0 <= x -> zlen (cbor (out_item {| OutAddress := a; OutAmount := x |})) = 1 + zlen (cbor (addr_item a)) + uint_size x.
Proof.
  intros H. unfold out_item. cbn [OutAddress OutAmount cbor flat_map length app]. rewrite app_nil_r. unfold zlen. rewrite !app_length. cbn [length].
  pose proof (head_size 0 x H) as E. unfold zlen in E. change (length (head 4 (Z.of_nat 2))) with 1%nat. lia.
Qed.
Lemma sum_one i : sum_size [i] = zlen (cbor i).
Proof. unfold sum_size. cbn [flat_map]. rewrite app_nil_r. reflexivity. Qed.
Lemma ph_addr_size : zlen (cbor (addr_item placeholder_addr)) = 59.
Proof. vm_compute. reflexivity. Qed.

(** The difference between a transaction with one more output, other witnesses and fee, and what MinFee measured. *)
Lemma size_diff t T x c a : 0 <= c -> Inputs (Body T) = Inputs (Body t) -> Outputs (Body T) = Outputs (Body t) ++ [{| OutAddress := a; OutAmount := c |}] ->
  TTL (Body T) = TTL (Body t) -> Metadata T = Metadata t -> (Metadata t = None -> AuxHash (Body T) = AuxHash (Body t)) ->
  tx_size T - tx_size (fee_tx t x) =
    (if total_inputs (Body t) =? total_outputs (Body t)
     then uint_size (zlen (Outputs (Body t)) + 1) - uint_size (zlen (Outputs (Body t))) + 1 + zlen (cbor (addr_item a)) + uint_size c
     else zlen (cbor (addr_item a)) - 59 + (uint_size c - uint_size (placeholder_amount (Body t))))
    + (uint_size (Fee (Body T)) - uint_size x) + (wit_size (Witness T) - wit_size (fee_wit t))
    + match Metadata t with None => aux_size (AuxHash (Body t)) | Some _ => 0 end.
Proof.
  intros Hc E1 E2 E3 E4 E5. unfold tx_size, aux_len. rewrite E1, E2, E3, E4. cbn [fee_tx Body Inputs Outputs TTL Fee AuxHash Witness Metadata].
  rewrite !map_app, !sum_size_app. cbn [map]. rewrite sum_one, out_size by auto. unfold ph_out.
  assert (Ea : match Metadata t with Some _ => 35 | None => aux_size (AuxHash (Body T)) end
             = match Metadata t with Some _ => 35 | None => aux_size (AuxHash (Body t)) end) by (destruct (Metadata t); [reflexivity | rewrite E5; auto]).
  rewrite Ea. assert (Ez : aux_size [] = 0) by reflexivity. rewrite Ez.
  assert (EL : zlen (Outputs (Body t) ++ [{| OutAddress := a; OutAmount := c |}]) = zlen (Outputs (Body t)) + 1) by (unfold zlen; rewrite app_length; cbn; lia). rewrite EL.
  assert (EN : sum_size [] = 0) by reflexivity.
  destruct (_ =? _); cbn [map app].
  - rewrite !app_nil_r, EN. destruct (Metadata t); lia.
  - rewrite sum_one, out_size by apply u64_range. rewrite ph_addr_size.
    assert (EL2 : zlen (Outputs (Body t) ++ [{| OutAddress := placeholder_addr; OutAmount := placeholder_amount (Body t) |}]) = zlen (Outputs (Body t)) + 1) by (unfold zlen; rewrite app_length; cbn; lia).
    rewrite EL2. destruct (Metadata t); lia.
Qed.

Definition wit_std (ws : list VKeyWitness) : Prop := forall w, In w ws -> length (VKey w) = 32%nat /\ length (Signature w) = 64%nat.
Lemma wit_size_std ws : wit_std ws -> ws <> [] -> wit_size ws = 2 + uint_size (zlen ws) + 101 * zlen ws.
Proof. apply witness_size. Qed.
Lemma fee_wit_std t : wit_std (Witness t) -> wit_std (fee_wit t) /\ fee_wit t <> [] /\ zlen (fee_wit t) = Z.max 1 (zlen (Witness t)).
Proof.
  intros H. unfold fee_wit. destruct (Witness t) as [| w l] eqn:E.
  - split; [intros x [<- | []]; split; reflexivity |]. split; [discriminate | reflexivity].
  - split; [exact H |]. split; [discriminate |]. unfold zlen. cbn [length]. lia.
Qed.

(** ** The builder's transaction after AddChangeIfNeeded and MinFee *)
Lemma add_change_tx w b a : Inv w -> (b < nbuilders w)%nat ->
  builder_tx (add_change_if_needed w b a) b =
  {| Body := add_change (Body (builder_tx w b)) (mf w b) a; Witness := mf_wit w b; Valid := Valid (builder_tx w b); Metadata := Metadata (builder_tx w b) |}.
Proof.
  intros I Hb. destruct (inv_builders w I b Hb) as (K & _). destruct (inv_txs w I _ K) as [K1 K2]. rewrite add_change_eq.
  unfold builder_tx, bld. cbn [w_builders put_body tick put_wit]. fold (bld w b). set (t := b_tx (bld w b)) in *.
  unfold load at 1, obj. cbn [w_txs w_bodies w_wits put_body tick put_wit]. fold (obj w t). rewrite !nth_upd_same by auto. reflexivity.
Qed.
Lemma min_fee_tx w b : Inv w -> (b < nbuilders w)%nat -> builder_tx (fst (run_min_fee w b)) b = with_witness (builder_tx w b) (mf_wit w b).
Proof.
  intros I Hb. destruct (inv_builders w I b Hb) as (K & _). destruct (inv_txs w I _ K) as [K1 K2]. rewrite run_min_fee_eq. cbn [fst].
  unfold builder_tx, bld. cbn [w_builders tick put_wit]. fold (bld w b). set (t := b_tx (bld w b)) in *.
  unfold load at 1, obj. cbn [w_txs w_bodies w_wits tick put_wit]. fold (obj w t). rewrite !nth_upd_same by auto. reflexivity.
Qed.
Lemma mf_wit_eq w b : mf_wit w b = fee_wit (builder_tx w b).
Proof.
  unfold mf_wit, min_fee. destruct (tx_fee (_ + 1) _ _) as [body3 r1]. destruct (tx_fee (_ + 3) _ _). reflexivity.
Qed.
Lemma bld_add_change w b a : bld (add_change_if_needed w b a) = bld w.
Proof. rewrite add_change_eq. reflexivity. Qed.
Lemma keys_add_change w b a b' : builder_keys (add_change_if_needed w b a) b' = builder_keys w b'.
Proof. rewrite add_change_eq. reflexivity. Qed.

Lemma sign_all_ok keys h ws : key_sizes -> sign_all keys h = Ok ws -> Forall wit_ok ws /\ wit_std ws /\ length ws = length keys.
Proof.
  intros KS H. apply sign_all_forall2 in H. induction H as [| k w keys ws [H1 H2] _ (IH1 & IH2 & IH3)].
  - split; [constructor |]. split; [intros w [] | reflexivity].
  - destruct (KS k) as [P Q]. destruct (P _ H1) as [P1 P2]. destruct (Q _ _ H2) as [Q1 Q2]. split; [| split].
    + constructor; auto. split; [exact P1 |]. split; [unfold zlen; rewrite P2; reflexivity |]. split; [exact Q1 | unfold zlen; rewrite Q2; reflexivity].
    + intros x [<- | Hx]; auto.
    + cbn. congruence.
Qed.

(** The transaction that AddChangeIfNeeded followed by Build returns. *)
Lemma change_then_build w b a w2 t2 : runtime_order -> hash_ok -> key_sizes -> Inv w -> (b < nbuilders w)%nat ->
  let t := builder_tx w b in
  tx_ok t -> zlen (Outputs (Body t)) + 1 < 2 ^ 64 -> zlen (builder_keys w b) < 2 ^ 64 ->
  (forall c, 0 <= c < 2 ^ 64 -> out_ok {| OutAddress := a; OutAmount := c |}) ->
  build (add_change_if_needed w b a) b = (w2, Ok t2) ->
  let T := load w2 t2 in
  let f1 := fee_for (b_fees (bld w b)) t (Fee (Body t)) in
  let fee := fee_for (b_fees (bld w b)) t f1 in
  exists c, c = u64 (sum_in (Body t) - sum_out (Body t) - fee) /\
    Inputs (Body T) = Inputs (Body t) /\ Outputs (Body T) = Outputs (Body t) ++ [{| OutAddress := a; OutAmount := c |}] /\
    TTL (Body T) = TTL (Body t) /\ Metadata T = Metadata t /\ Fee (Body T) = fee /\ (Metadata t = None -> AuxHash (Body T) = AuxHash (Body t)) /\
    wit_std (Witness T) /\ length (Witness T) = length (builder_keys w b) /\ tx_ok T.
Proof.
  intros RO HO KS I Hb t K L LK Ha E T f1 fee.
  assert (MF : mf w b = fee) by (unfold mf; rewrite (min_fee_spec _ _ _ RO HO K L); reflexivity).
  pose proof (inv_step w (OAddChange b a) I Hb) as I1. cbn [step] in I1.
  assert (Hb1 : (b < nbuilders (add_change_if_needed w b a))%nat) by (rewrite add_change_eq; exact Hb).
  destruct (build_loads _ _ _ _ I1 Hb1 E) as (h & ws & H1 & H2 & H3 & _). rewrite keys_add_change in H2.
  rewrite (add_change_tx w b a I Hb) in H1, H3. rewrite MF in H1, H3. fold t in H1, H3. fold T in H3.
  set (t1 := {| Body := add_change (Body t) fee a; Witness := mf_wit w b; Valid := Valid t; Metadata := Metadata t |}) in *.
  set (n := w_clock (add_change_if_needed w b a)) in *.
  exists (change_amount (set_fee (Body t) fee)). split; [apply change_amount_sum |].
  destruct (sign_all_ok _ _ _ KS H2) as (W1 & W2 & W3).
  assert (K1 : tx_ok t1).
  { destruct K as ((B1 & B2 & B3 & B4 & B5 & B6 & B7 & B8) & W & M). split; [| split; [| exact M]].
    - split; [exact B1 |]. split; [apply Forall_app; split; [exact B2 | constructor; [| constructor]; apply Ha, u64_range] |]. split; [exact B3 |].
      split; [| split; [apply u64_range |]; split; [exact B6 |]; split; [exact B7 | exact B8]].
      cbn [t1 Body add_change add_outputs set_fee Outputs]. unfold zlen in *. rewrite app_length. cbn [length]. lia.
    - cbn [t1 Witness]. rewrite mf_wit_eq. apply fee_wit_ok. exact W. }
  rewrite (tx_hash_spec n t1 RO HO K1) in H1, H3. cbn [fst snd] in H1, H3.
  assert (X : Inputs (aux_body n t1) = Inputs (Body t1) /\ Outputs (aux_body n t1) = Outputs (Body t1) /\ Fee (aux_body n t1) = Fee (Body t1) /\ TTL (aux_body n t1) = TTL (Body t1) /\
              (Metadata t = None -> AuxHash (aux_body n t1) = AuxHash (Body t1)))
    by (unfold aux_body; change (Metadata t1) with (Metadata t); destruct (Metadata t); repeat split; auto; discriminate).
  destruct X as (X1 & X2 & X3 & X4 & X5). rewrite H3. cbn [Body Metadata Witness].
  split; [rewrite X1; reflexivity |]. split; [rewrite X2; reflexivity |]. split; [rewrite X4; reflexivity |]. split; [reflexivity |].
  split; [rewrite X3; reflexivity |]. split; [exact X5 |]. split; [exact W2 |]. split; [exact W3 |].
  destruct K1 as (K1 & _ & K1'). split; [apply aux_body_ok; auto |]. split; [split; [exact W1 |] | exact K1']. cbn [Witness]; unfold zlen in *; rewrite W3; exact LK.
Qed.
End Fees.
