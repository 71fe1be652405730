(** C75, C76: the payment of examples/transactions/txbuilder, from the wallet's root key to the submitted bytes. *)
From Verif.Model Require Import Base Bech32 Edwards Network Address Tx Builder Bip32 Keys Wallet Payment.
From Verif.Spec Require Import Bech32Spec BchSpec EdSpec CborSpec TxSpec MdSpec Bip32Spec Cip19 AddressSpec WalletSpec.
From Verif.Proofs Require Import Util TxFacts HeapFacts HeapProps FeeFacts PrimeOrder Bip32Facts KeyFacts AddressFacts AddressProps.
From Verif.Props Require Import Tx Edwards Builder Bip32 Shelley Wallet.
Open Scope Z_scope.
#[local] Opaque zmul.

(** ** The input *)
Lemma first_match_last pre u post : minRequired <= InAmount u -> Forall (fun v => InAmount v < minRequired) post -> firstMatchInput (pre ++ u :: post) = u.
Proof.
  intros HU HP. unfold firstMatchInput. rewrite fold_left_app. cbn [fold_left]. rewrite (proj2 (Z.leb_le _ _) HU). induction HP as [|v post V _ IH]; [reflexivity |].
  cbn [fold_left]. rewrite (proj2 (Z.leb_gt _ _) V). exact IH.
Qed.

Section Ops.
Context {C : TxCrypto} {MO : MapOrder}.
Definition base_ops fees prv u o slot : list op :=
  [OMakeKeys [prv] 0; ONewBuilder fees {| s_arr := 0; s_off := 0; s_len := 1 |}; OAddInputs 0 [u]; OAddOutputs 0 [o]; OSetTTL 0 (payment_ttl slot)].
Lemma base_reachable fees prv u o slot : let w := run empty_world (base_ops fees prv u o slot) in
  reachable w /\ (0 < nbuilders w)%nat /\ builder_keys w 0 = [prv] /\ b_fees (bld w 0) = fees /\
  builder_tx w 0 = {| Body := {| Inputs := [u]; Outputs := [o]; Fee := 0; TTL := payment_ttl slot; AuxHash := [] |}; Witness := []; Valid := true; Metadata := None |}.
Proof.
  intros w. split.
  { exists (base_ops fees prv u o slot); split; [| reflexivity]; cbn [valid_run base_ops]; split; [exact Logic.I |]; split; [cbn; lia |]; repeat (split; [cbv [step make_keys new_tx_builder]; cbn; lia |]); exact Logic.I. }
  split; [cbn; lia |]. split; [reflexivity |]. split; reflexivity.
Qed.
End Ops.

(** ** Sizes *)
Definition payable (a : Address) : Prop := shelley_ok a /\ ~ is_reward a.
Lemma payable_size a : payable a -> zlen (addr_bytes a) <= 59 /\ all_bytes (addr_bytes a).
Proof.
  intros [[P K] NR]. pose proof (proj1 (known_net_id _ K)) as N. assert (B : all_bytes (addr_bytes a)) by (apply bytes_all, addr_bytes_ok; assumption). split; [| exact B]. clear B.
  destruct a as [[n p s] | [n p] | [n s] | [n p [sl tx ct]] | b]; try (destruct NR; exact Logic.I); cbn [shelley_parts_ok net_of] in P, N; try contradiction.
  - destruct P as [P Q]. cbn [addr_bytes]. rewrite base_layout_lemma by assumption. unfold base_layout, zlen. cbn [length]. rewrite app_length. destruct P as [_ [-> _]], Q as [_ [-> _]]. cbn. lia.
  - cbn [addr_bytes]. rewrite enterprise_layout_lemma by assumption. unfold enterprise_layout, zlen. cbn [length]. destruct P as [_ [-> _]]. cbn. lia.
  - destruct P as [[_ [P _]] (S1 & S2 & S3)]. cbn [pa_pay pa_ptr Slot TxIndex CertIndex] in *.
    destruct (VarNat.encode_item sl S1) as (_ & _ & _ & L1). destruct (VarNat.encode_item tx S2) as (_ & _ & _ & L2). destruct (VarNat.encode_item ct S3) as (_ & _ & _ & L3).
    unfold addr_bytes, pointer_bytes, zlen. rewrite !app_length. cbn [length pa_pay pa_ptr Slot TxIndex CertIndex]. rewrite P. clear - L1 L2 L3. lia.
Qed.
Lemma payable_out a c : payable a -> 0 <= c < 2 ^ 64 -> out_ok {| OutAddress := a; OutAmount := c |} /\ shelley_out {| OutAddress := a; OutAmount := c |}.
Proof.
  intros P K. destruct (payable_size a P) as [L B]. destruct P as [[P _] NR]. split; [split; [| exact K] |]; cbn [OutAddress]; unfold shelley_out; cbn [OutAddress];
  destruct a; try exact Logic.I; try (destruct P; fail); try (destruct NR; exact Logic.I); (split; [exact B | lia]).
Qed.
Lemma payable_item a : payable a -> zlen (cbor (addr_item a)) = uint_size (zlen (addr_bytes a)) + zlen (addr_bytes a).
Proof.
  intros [[P _] _]. replace (addr_item a) with (Bstr (addr_bytes a)) by (destruct a; try reflexivity; destruct P). cbn [cbor]. rewrite zlen_app, head_size by apply zlen_nonneg. reflexivity.
Qed.
Lemma base_item b : payable (ABase b) -> zlen (cbor (addr_item (ABase b))) = 59.
Proof.
  intros P. rewrite (payable_item _ P). assert (L : zlen (addr_bytes (ABase b)) = 57).
  { destruct P as [[P K] _]. pose proof (proj1 (known_net_id _ K)) as N. cbn [shelley_parts_ok net_of] in P, N. destruct P as [P Q]. cbn [addr_bytes]. rewrite base_layout_lemma by assumption.
    unfold base_layout, zlen. cbn [length]. rewrite app_length. destruct P as [_ [-> _]], Q as [_ [-> _]]. reflexivity. }
  rewrite L. reflexivity.
Qed.
Lemma size_bound t u o1 o2 : Inputs (Body t) = [u] -> Outputs (Body t) = [o1; o2] -> AuxHash (Body t) = [] -> Metadata t = None -> wit_std (Witness t) -> length (Witness t) = 1%nat ->
  length (TxHash u) = 32%nat -> payable (OutAddress o1) -> payable (OutAddress o2) -> 0 <= Index u -> 0 <= OutAmount o1 -> 0 <= OutAmount o2 -> 0 <= tx_size t <= 400.
Proof.
  intros EI EO EA EM WS WL HL P1 P2 KI K1 K2. unfold tx_size, aux_len. rewrite EI, EO, EA, EM. cbn [map].
  replace (sum_size [out_item o1; out_item o2]) with (zlen (cbor (out_item o1)) + zlen (cbor (out_item o2))) by (unfold sum_size; cbn [flat_map]; rewrite app_nil_r, zlen_app; reflexivity).
  destruct o1 as [a1 c1], o2 as [a2 c2]. cbn [OutAddress OutAmount] in *. rewrite !out_size by assumption. rewrite (payable_item _ P1), (payable_item _ P2). destruct (payable_size _ P1) as [L1 _]. destruct (payable_size _ P2) as [L2 _].
  rewrite sum_one. assert (EU : zlen (cbor (input_item (in_pair u))) = 1 + (2 + 32) + uint_size (Index u)).
  { unfold input_item, in_pair. cbn [fst snd cbor flat_map]. rewrite app_nil_r, !zlen_app, !head_size by (try apply zlen_nonneg; assumption || (cbn; lia)). assert (ZL : zlen (TxHash u) = 32) by (unfold zlen; rewrite HL; reflexivity). rewrite ZL, HL. change (uint_size (Z.of_nat (length [Bstr (TxHash u); Uint (Index u)]))) with 1. change (uint_size (Z.of_nat 32)) with 2. lia. }
  rewrite EU. rewrite (wit_size_std _ WS) by (intros E0; rewrite E0 in WL; discriminate WL). assert (ZW : zlen (Witness t) = 1) by (unfold zlen; rewrite WL; reflexivity). rewrite ZW.
  pose proof (uint_size_range (Index u)). pose proof (uint_size_range (Fee (Body t))). pose proof (uint_size_range (TTL (Body t))). pose proof (uint_size_range c1). pose proof (uint_size_range c2).
  pose proof (zlen_nonneg (addr_bytes a1)). pose proof (zlen_nonneg (addr_bytes a2)).
  assert (X : forall v, v <= 59 -> 1 <= uint_size v <= 2) by (intros v V; pose proof (uint_size_mono v 59 V) as Q; change (uint_size 59) with 2 in Q; pose proof (uint_size_range v); lia).
  pose proof (X _ L1). pose proof (X _ L2). change (uint_size (zlen [u])) with 1. change (aux_size []) with 0. change (meta_len None) with 1. unfold ttl_size. change (uint_size (zlen [{| OutAddress := a1; OutAmount := c1 |}; {| OutAddress := a2; OutAmount := c2 |}])) with 1.
  change (uint_size 1) with 1. destruct (TTL (Body t) =? 0); lia.
Qed.

(** ** C75: the submitted bytes *)
Definition receiver_is {U : Unicode} {R : Runtime} (text : bytes) (source receiver : Address) : Prop :=
  (text = [] /\ receiver = source) \/ (text <> [] /\ NewAddress text = Ok receiver /\ payable receiver).
Lemma bytes_check l : forallb (fun x => (0 <=? x) && (x <? 256)) l = true -> forall x, In x l -> 0 <= x < 256.
Proof. intros F x I. rewrite forallb_forall in F. apply F in I. lia. Qed.
Theorem C75_payment : forall (H : Hashes) (MO : MapOrder) (U : Unicode) (R : Runtime) fees root text receiver pre u post slot n,
  hashes_ok -> runtime_order -> root_key root ->
  let vk := public_key_of (path_key hmac_sha512 root payment_path) in
  let sk := public_key_of (path_key hmac_sha512 root stake_path) in
  let source := base_layout 0 false false (blake2b_224 vk) (blake2b_224 sk) in
  receiver_is text (ABase {| ba_net := TestNet; ba_pay := NewKeyStakeCredential (blake2b_224 vk); ba_stake := NewKeyStakeCredential (blake2b_224 sk) |}) receiver ->
  (* the last unspent output of at least 6.2 ada *)
  6200000 <= InAmount u < 2 ^ 64 -> Forall (fun v => InAmount v < 6200000) post -> length (TxHash u) = 32%nat -> all_bytes (TxHash u) -> 0 <= Index u < 2 ^ 16 ->
  2 ^ 16 <= TxFeeFixed fees -> 0 <= TxFeePerByte fees -> TxFeeFixed fees + 600 * TxFeePerByte fees <= 1200000 ->
  exists w t s sg c fee,
    payment fees root text (pre ++ u :: post) slot = Ok (w, t) /\ snd (@tx_bytes (tx_crypto H) MO n (load w t)) = Ok s /\ Fee (Body (load w t)) = fee /\
    let body := body_item [(TxHash u, Index u)] (map output_item [(addr_bytes receiver, 5000000); (source, c)]) fee ((slot + 300) mod 2 ^ 32) [] in
    let it := tx_item body [(vk, sg)] true null_item in
    s = cbor it /\ item_ok it /\ verifies sha512 vk (blake2b_256 (cbor body)) sg /\
    InAmount u = 5000000 + c + fee /\ 0 <= c /\ 0 <= fee /\ zlen s <= 400 /\
    (* the fee is the linear fee of the transaction, with the amount a fee of 200000 would leave in place of the change *)
    fee = TxFeeFixed fees + TxFeePerByte fees * (zlen s - uint_size c + uint_size (InAmount u - 5200000)).
Proof.
  intros H MO U R fees root text receiver pre u post slot n HO RO RK vk sk source RI [Hu1 Hu2] HP HL HB HIx F1 F2 F3.
  destruct (C73_base_address H TestNet root HO RK) as (EG & K & _ & KB & _). fold vk sk in EG. set (prv := path_key hmac_sha512 root payment_path) in *.
  set (src := {| ba_net := TestNet; ba_pay := {| Kind := 0; Payload := blake2b_224 vk |}; ba_stake := {| Kind := 0; Payload := blake2b_224 sk |} |}) in *.
  change {| ba_net := TestNet; ba_pay := NewKeyStakeCredential (blake2b_224 vk); ba_stake := NewKeyStakeCredential (blake2b_224 sk) |} with src in RI.
  destruct (C73_text H U R TestNet root src prv HO RK (or_intror eq_refl) EG) as (SO & tx0 & Et0 & _ & Nt0).
  assert (PS : payable (ABase src)) by (split; [exact SO | intros []]).
  assert (PR : payable receiver) by (destruct RI as [[_ ->] | (_ & _ & PR)]; assumption).
  assert (ES : addr_bytes (ABase src) = source).
  { cbn [addr_bytes]. destruct SO as [[P Q] _]. rewrite base_layout_lemma by (try assumption; cbn; lia). reflexivity. }
  pose proof (@tx_crypto_hash H HO) as HH. pose proof (@tx_crypto_sizes H) as KS.
  set (o := {| OutAddress := receiver; OutAmount := u64 sendAmount |}).
  destruct (@base_reachable (tx_crypto H) MO fees prv u o slot) as (RW & NB & EK & EF & ET). set (w0 := @run (tx_crypto H) MO empty_world (base_ops fees prv u o slot)) in *.
  set (t0 := builder_tx w0 0) in *.
  assert (TTLr : 0 <= payment_ttl slot < 2 ^ 32) by (apply Z.mod_pos_bound; lia).
  assert (K0 : tx_ok t0).
  { rewrite ET. split; [| split; [split; [constructor | cbn; lia] | exact Logic.I]]. unfold body_ok. cbn [Body Inputs Outputs Fee TTL AuxHash].
    split; [apply Forall_cons; [| apply Forall_nil]; split; [exact HB |]; split; [unfold zlen; rewrite HL; lia | exact HIx] |].
    split; [apply Forall_cons; [| apply Forall_nil]; apply (payable_out receiver); [exact PR | vm_compute; split; [discriminate | reflexivity]] |]. split; [cbn; lia |]. split; [cbn; lia |]. split; [lia |]. split; [exact TTLr |]. split; [intros x [] | cbn; lia]. }
  set (w1 := @add_change_if_needed (tx_crypto H) MO w0 0 (ABase src)).
  assert (RW1 : @reachable (tx_crypto H) MO w1) by exact (@reachable_step (tx_crypto H) MO w0 (OAddChange 0 (ABase src)) RW NB).
  assert (NB1 : (0 < nbuilders w1)%nat) by (unfold w1; rewrite add_change_eq; exact NB).
  assert (EK1 : builder_keys w1 0 = [prv]) by (unfold w1; rewrite keys_add_change; exact EK).
  pose proof (@reachable_inv (tx_crypto H) MO w0 RW) as I0.
  assert (K1 : tx_ok (builder_tx w1 0)).
  { unfold w1. rewrite (add_change_tx w0 0 (ABase src) I0 NB). fold t0. destruct K0 as ((B1 & B2 & B3 & B4 & B5 & B6 & B7 & B8) & W & M). split; [| split; [| exact M]].
    - split; [exact B1 |]. split; [apply Forall_app; split; [exact B2 |]; apply Forall_cons; [| apply Forall_nil]; apply payable_out; [exact PS | apply u64_range] |]. split; [exact B3 |].
      split; [rewrite ET; cbn; lia |]. split; [| split; [exact B6 |]; split; [exact B7 | exact B8]].
      cbn [Body add_change add_outputs set_fee Fee]. unfold mf. rewrite min_fee_spec; [apply u64_range | assumption | assumption | | ]; fold t0; [split; [repeat (split; [assumption |]); assumption | split; assumption] | rewrite ET; cbn; lia].
    - cbn [Witness]. rewrite mf_wit_eq. apply fee_wit_ok. exact W. }
  destruct (C69_total H MO w1 0 HO RO K1) as (w2 & t2 & EB); [intros k I; rewrite EK1 in I; destruct I as [<- | []]; exact K |].
  set (T := load w2 t2).
  assert (EP : payment fees root text (pre ++ u :: post) slot = Ok (w2, t2)).
  { unfold payment. rewrite EG. cbn [bind]. rewrite (first_match_last pre u post Hu1 HP).
    assert (EW : @run (tx_crypto H) MO empty_world (payment_ops fees prv u receiver (ABase src) slot) = w1) by reflexivity.
    destruct RI as [[-> ->] | (TN & TE & _)].
    - rewrite Et0. cbn [bind]. rewrite Nt0. cbn [bind]. cbv zeta. rewrite EW, EB. reflexivity.
    - destruct text as [|c0 text]; [contradiction |]. cbn [bind]. rewrite TE. cbn [bind]. cbv zeta. rewrite EW, EB. reflexivity. }
  destruct (@change_then_build (tx_crypto H) MO w0 0 (ABase src) w2 t2 RO HH KS I0 NB) as (c & Ec & E1 & E2 & E3 & E4 & E5 & E6 & W1 & W2 & KT);
    [exact K0 | fold t0; rewrite ET; cbn; lia | rewrite EK; cbn; lia | intros c Hc; apply payable_out; assumption | exact EB |].
  fold t0 T in Ec, E1, E2, E3, E4, E5, E6, W1, W2, KT. rewrite EF in Ec, E5. rewrite EK in W2.
  set (f1 := fee_for fees t0 (Fee (Body t0))) in *. set (fee := fee_for fees t0 f1) in *.
  assert (SI : sum_in (Body t0) = InAmount u) by (rewrite ET; cbn; lia).
  assert (SOu : sum_out (Body t0) = 5000000) by (rewrite ET; reflexivity).
  assert (PA : placeholder_amount (Body t0) = InAmount u - 5200000) by (rewrite placeholder_amount_sum, SI, SOu; unfold u64; rewrite Z.mod_small by lia; lia).
  assert (PP : payable placeholder_addr).
  { split; [| intros []]. split; [| right; reflexivity]. cbn [shelley_parts_ok placeholder_addr ba_pay ba_stake]. split; (split; [left; reflexivity | split; [reflexivity | apply bytes_check; vm_compute; reflexivity]]). }
  assert (EPH : ph_out (Body t0) = [{| OutAddress := placeholder_addr; OutAmount := placeholder_amount (Body t0) |}]).
  { unfold ph_out. rewrite total_inputs_sum, total_outputs_sum, SI, SOu. unfold u64. rewrite !Z.mod_small by lia. rewrite (proj2 (Z.eqb_neq _ _)) by lia. reflexivity. }
  assert (SB : forall x, 0 <= tx_size (fee_tx t0 x) <= 400).
  { intros x. apply (size_bound _ u o {| OutAddress := placeholder_addr; OutAmount := placeholder_amount (Body t0) |}).
    - rewrite ET. reflexivity.
    - cbn [fee_tx Body Outputs]. rewrite EPH. rewrite ET at 1. reflexivity.
    - reflexivity.
    - rewrite ET. reflexivity.
    - destruct (fee_wit_std t0) as (V1 & _ & _); [rewrite ET; intros y [] |]. exact V1.
    - rewrite ET. reflexivity.
    - exact HL.
    - exact PR.
    - exact PP.
    - lia.
    - vm_compute. discriminate.
    - cbn [OutAmount]. rewrite PA. lia. }
  assert (FB : 2 ^ 16 <= fee <= 1200000).
  { unfold fee, fee_for. pose proof (SB f1) as Q. assert (TxFeePerByte fees * tx_size (fee_tx t0 f1) <= TxFeePerByte fees * 400) by (apply Z.mul_le_mono_nonneg_l; lia).
    assert (0 <= TxFeePerByte fees * tx_size (fee_tx t0 f1)) by (apply Z.mul_nonneg_nonneg; lia). unfold u64. rewrite Z.mod_small by lia. lia. }
  assert (Hc : c = InAmount u - 5000000 - fee) by (rewrite Ec, SI, SOu; apply Z.mod_small; lia).
  destruct (@C21_partial (tx_crypto H) MO n T RO HH KT) as (aux & meta & it & s & Es & Eit & Iok & Eitem & Emeta).
  { rewrite E2. apply Forall_app. split; [rewrite ET; apply Forall_cons; [| apply Forall_nil]; apply payable_out; [exact PR | vm_compute; split; [discriminate | reflexivity]] |]. apply Forall_cons; [| apply Forall_nil]. apply payable_out; [exact PS | lia]. }
  assert (EMT : Metadata T = None) by (rewrite E4, ET; reflexivity). rewrite EMT in Emeta. destruct Emeta as [[-> ->] _].
  assert (EAT : AuxHash (Body T) = []) by (rewrite E6; rewrite ET; reflexivity).
  destruct (C69_signed H MO w1 0 w2 t2 HO RW1 NB1) as (bs & Ebs & SG); [intros k I; rewrite EK1 in I; destruct I as [<- | []]; split; assumption | exact EB |]. fold T in Ebs, SG. rewrite EK1 in SG.
  assert (EX : exists x, Witness T = [x] /\ VKey x = vk /\ verifies sha512 (VKey x) (blake2b_256 bs) (Signature x)).
  { revert SG. generalize (Witness T). intros ws SG. destruct ws as [| x [| y ws]]; [inversion SG | | inversion SG as [| ? ? ? ? _ SG2]; inversion SG2].
    exists x. assert (G : VKey x = public_of (le_value (kL prv)) /\ bytes_len 64 (Signature x) /\ verifies sha512 (VKey x) (blake2b_256 bs) (Signature x)) by (inversion SG; assumption). destruct G as (G1 & _ & G2). split; [reflexivity |]. split; [exact G1 | exact G2]. }
  destruct EX as (x & Q2 & Pv & V).
  assert (EVT : Valid T = true).
  { destruct (@build_loads (tx_crypto H) MO w1 0 w2 t2 (@reachable_inv (tx_crypto H) MO w1 RW1) NB1 EB) as (h & ws & _ & _ & EL & _). unfold T. rewrite EL. cbn [Valid]. unfold w1. rewrite (add_change_tx w0 0 (ABase src) I0 NB). fold t0. rewrite ET. reflexivity. }
  assert (EOut : map (fun o => (addr_bytes (OutAddress o), OutAmount o)) (Outputs (Body T)) = [(addr_bytes receiver, 5000000); (source, c)]).
  { rewrite E2, ET. cbn [Body Outputs app map]. unfold o. cbn [OutAddress OutAmount]. rewrite ES. reflexivity. }
  assert (EIn : map (fun i => (TxHash i, Index i)) (Inputs (Body T)) = [(TxHash u, Index u)]) by (rewrite E1, ET; reflexivity).
  assert (ETTL : TTL (Body T) = (slot + 300) mod 2 ^ 32) by (rewrite E3, ET; cbn [Body TTL]; unfold payment_ttl, u32; rewrite Zplus_mod_idemp_l; reflexivity).
  rewrite EIn, EOut, E5, ETTL, EAT, Q2, EVT in Eitem. cbn [map] in Eitem. rewrite Pv in Eitem.
  exists w2, t2, s, (Signature x), c, fee. split; [exact EP |]. split; [exact Es |]. split; [exact E5 |]. cbv zeta.
  assert (EB2 : bs = cbor (body_item [(TxHash u, Index u)] (map output_item [(addr_bytes receiver, 5000000); (source, c)]) fee ((slot + 300) mod 2 ^ 32) [])).
  { rewrite body_marshal_spec in Ebs by apply KT. apply Ok_inj in Ebs. rewrite <- Ebs. unfold the_body.
    change (map in_pair (Inputs (Body T))) with (map (fun i => (TxHash i, Index i)) (Inputs (Body T))). rewrite EIn, E5, ETTL, EAT, <- EOut.
    rewrite shelley_items; [reflexivity |]. rewrite E2. apply Forall_app. split; [rewrite ET; apply Forall_cons; [| apply Forall_nil]; apply payable_out; [exact PR | vm_compute; split; [discriminate | reflexivity]] |]. apply Forall_cons; [| apply Forall_nil]. apply payable_out; [exact PS | lia]. }
  split; [rewrite Eit, Eitem; reflexivity |]. split; [rewrite Eitem in Iok; exact Iok |]. split; [rewrite <- EB2; rewrite <- Pv; exact V |].
  split; [lia |]. split; [lia |]. split; [lia |].
  destruct (@tx_bytes_size (tx_crypto H) MO n T RO HH KT) as (s' & Es' & EZ). rewrite Es in Es'. apply Ok_inj in Es'. subst s'. rewrite EZ.
  split; [apply (size_bound T u o {| OutAddress := ABase src; OutAmount := c |}); [rewrite E1, ET; reflexivity | rewrite E2, ET; reflexivity | exact EAT | exact EMT | exact W1 | exact W2 | exact HL | exact PR | exact PS | lia | vm_compute; discriminate | cbn [OutAmount]; lia] |].
  assert (D : tx_size T - tx_size (fee_tx t0 f1) = uint_size c - uint_size (InAmount u - 5200000)).
  { rewrite (size_diff t0 T f1 c (ABase src) ltac:(lia) E1 E2 E3 E4 E6), E5, total_inputs_sum, total_outputs_sum, SI, SOu, PA, (base_item src PS).
    unfold u64. rewrite !Z.mod_small by lia. rewrite (proj2 (Z.eqb_neq _ _)) by lia.
    assert (WE : wit_size (Witness T) = wit_size (fee_wit t0)).
    { destruct (fee_wit_std t0) as (V1 & V2 & V3); [rewrite ET; intros y [] |]. rewrite (wit_size_std _ W1), (wit_size_std _ V1 V2), V3 by (rewrite Q2; discriminate). rewrite Q2, ET. reflexivity. }
    rewrite WE. assert (M0 : match Metadata t0 with Some _ => 0 | None => aux_size (AuxHash (Body t0)) end = 0) by (rewrite ET; reflexivity). rewrite M0.
    assert (FB1 : 2 ^ 16 <= f1 <= 1200000).
    { unfold f1, fee_for. pose proof (SB (Fee (Body t0))) as Q. assert (TxFeePerByte fees * tx_size (fee_tx t0 (Fee (Body t0))) <= TxFeePerByte fees * 400) by (apply Z.mul_le_mono_nonneg_l; lia).
      assert (0 <= TxFeePerByte fees * tx_size (fee_tx t0 (Fee (Body t0)))) by (apply Z.mul_nonneg_nonneg; lia). unfold u64. rewrite Z.mod_small by lia. lia. }
    assert (U5 : forall x, 2 ^ 16 <= x <= 1200000 -> uint_size x = 5) by (clear; intros x Hx; unfold uint_size; repeat match goal with |- context [?x <? ?y] => destruct (Z.ltb_spec x y) end; lia).
    rewrite (U5 fee FB), (U5 f1 FB1). lia. }
  replace (tx_size T - uint_size c + uint_size (InAmount u - 5200000)) with (tx_size (fee_tx t0 f1)) by lia.
  pose proof (SB f1) as Q. assert (TxFeePerByte fees * tx_size (fee_tx t0 f1) <= TxFeePerByte fees * 400) by (apply Z.mul_le_mono_nonneg_l; lia).
  assert (0 <= TxFeePerByte fees * tx_size (fee_tx t0 f1)) by (apply Z.mul_nonneg_nonneg; lia). apply Z.mod_small. lia.
Qed.
Print Assumptions C75_payment.
(** So the fee covers the submitted bytes except when the change is in the range where its encoding is longer than
    the estimate: exactly when the change is at least 2^32 although a fee of 200000 would leave less. *)
Theorem C75_fee_exact : forall (H : Hashes) (MO : MapOrder) (U : Unicode) (R : Runtime) fees root text receiver pre u post slot n w t s,
  hashes_ok -> runtime_order -> root_key root ->
  let vk := public_key_of (path_key hmac_sha512 root payment_path) in
  let sk := public_key_of (path_key hmac_sha512 root stake_path) in
  receiver_is text (ABase {| ba_net := TestNet; ba_pay := NewKeyStakeCredential (blake2b_224 vk); ba_stake := NewKeyStakeCredential (blake2b_224 sk) |}) receiver ->
  6200000 <= InAmount u < 2 ^ 64 -> Forall (fun v => InAmount v < 6200000) post -> length (TxHash u) = 32%nat -> all_bytes (TxHash u) -> 0 <= Index u < 2 ^ 16 ->
  2 ^ 16 <= TxFeeFixed fees -> 0 <= TxFeePerByte fees -> TxFeeFixed fees + 600 * TxFeePerByte fees <= 1200000 ->
  payment fees root text (pre ++ u :: post) slot = Ok (w, t) -> snd (@tx_bytes (tx_crypto H) MO n (load w t)) = Ok s ->
  let fee := Fee (Body (load w t)) in
  TxFeeFixed fees + TxFeePerByte fees * zlen s <= fee <-> TxFeePerByte fees = 0 \/ ~ (InAmount u - 5200000 < 2 ^ 32 <= InAmount u - 5000000 - fee).
Proof.
  intros H MO U R fees root text receiver pre u post slot n w t s HO RO RK vk sk RI HU HP HL HB HIx F1 F2 F3 EP Es fee.
  destruct (C75_payment H MO U R fees root text receiver pre u post slot n HO RO RK RI HU HP HL HB HIx F1 F2 F3) as (w' & t' & s' & sg & c & fee' & EP' & Es' & EF & _ & _ & _ & A & C & F & _ & L).
  rewrite EP in EP'. apply Ok_inj in EP'. pose proof (f_equal fst EP') as Ew. pose proof (f_equal snd EP') as Et. cbn [fst snd] in Ew, Et. subst w' t'.
  rewrite Es in Es'. apply Ok_inj in Es'. subst s'. fold fee in EF. clearbody fee. subst fee'. rewrite L at 1. replace (InAmount u - 5000000 - fee) with c by lia.
  generalize dependent (InAmount u). intros i HU A L. generalize dependent (zlen s). intros z L. generalize dependent (TxFeePerByte fees). intros p F2 F3 L. generalize dependent (TxFeeFixed fees). intros f F1 F3 L.
  clear - HU A C F2. rewrite <- Z.add_le_mono_l.
  assert (S1 : uint_size (i - 5200000) = if i - 5200000 <? 2 ^ 32 then 5 else 9) by (unfold uint_size; repeat match goal with |- context [?x <? ?y] => destruct (Z.ltb_spec x y) end; lia).
  assert (S2 : if c <? 2 ^ 32 then uint_size c <= 5 else uint_size c = 9) by (unfold uint_size; repeat match goal with |- context [?x <? ?y] => destruct (Z.ltb_spec x y) end; lia).
  rewrite S1. clear S1. generalize dependent (uint_size c). intros k S2.
  destruct (Z.ltb_spec (i - 5200000) (2 ^ 32)), (Z.ltb_spec c (2 ^ 32)).
  - split; [intros _; right; lia |]. intros _. apply Z.mul_le_mono_nonneg_l; lia.
  - subst k. split.
    + intros Q. left. destruct (Z.eq_dec p 0) as [-> | N]; [reflexivity |]. exfalso. apply Z.mul_le_mono_pos_l in Q; lia.
    + intros [-> | Q]; [reflexivity | exfalso; lia].
  - split; [intros _; right; lia |]. intros _. apply Z.mul_le_mono_nonneg_l; lia.
  - split; [intros _; right; lia |]. intros _. apply Z.mul_le_mono_nonneg_l; lia.
Qed.
Print Assumptions C75_fee_exact.
(** In that range it is always too low. With the fees of the main network: an output of 2^32 + 5180000 lovelace. *)
Theorem C75_fee_refuted : forall (H : Hashes) (MO : MapOrder) (U : Unicode) (R : Runtime) root pre u post slot n,
  hashes_ok -> runtime_order -> root_key root ->
  InAmount u = 2 ^ 32 + 5180000 -> Forall (fun v => InAmount v < 6200000) post -> length (TxHash u) = 32%nat -> all_bytes (TxHash u) -> 0 <= Index u < 2 ^ 16 ->
  exists w t s, payment {| TxFeePerByte := 44; TxFeeFixed := 155381 |} root [] (pre ++ u :: post) slot = Ok (w, t) /\ snd (@tx_bytes (tx_crypto H) MO n (load w t)) = Ok s /\
    Fee (Body (load w t)) < 155381 + 44 * zlen s.
Proof.
  intros H MO U R root pre u post slot n HO RO RK EI HP HL HB HX.
  pose proof (fun rc => C75_payment H MO U R {| TxFeePerByte := 44; TxFeeFixed := 155381 |} root [] rc pre u post slot n HO RO RK) as Q.
  cbv zeta in Q. specialize (Q _ (or_introl (conj eq_refl eq_refl))).
  destruct Q as (w & t & s & sg & c & fee & E & Es & EF & _ & _ & _ & A & B & C & L & F); [lia | exact HP | exact HL | exact HB | exact HX | cbn; lia | cbn; lia | cbn; lia |].
  exists w, t, s. split; [exact E |]. split; [exact Es |]. rewrite EF, F. cbn [TxFeeFixed TxFeePerByte] in *. rewrite EI in *.
  pose proof (uint_size_range c) as R1. pose proof (uint_size_range (2 ^ 32 + 5180000 - 5200000)) as R2. assert (CB : 2 ^ 32 <= c) by lia. clear - CB. unfold uint_size.
  repeat match goal with |- context [?x <? ?y] => destruct (Z.ltb_spec x y) end; lia.
Qed.
Print Assumptions C75_fee_refuted.
(** The hypotheses can be met: a wallet with the toy hash functions pays itself. *)
Example C75_example : forall (U : Unicode) (R : Runtime), exists root w t c fee,
  @payment toy_hashes id_order U R {| TxFeePerByte := 44; TxFeeFixed := 155381 |} root [] [ex_input 3; ex_input 7000000; ex_input 4] 1000 = Ok (w, t) /\ 7000000 = 5000000 + c + fee /\ 0 <= c.
Proof.
  intros U R. destruct (C73_restore toy_hashes TestNet (repeat 9 32) toy_hashes_ok) as (root & addr & prv & _ & RK & _). exists root.
  pose proof (fun rc => C75_payment toy_hashes id_order U R {| TxFeePerByte := 44; TxFeeFixed := 155381 |} root [] rc [ex_input 3] (ex_input 7000000) [ex_input 4] 1000 0%nat toy_hashes_ok id_runtime RK) as Q.
  cbv zeta in Q. specialize (Q _ (or_introl (conj eq_refl eq_refl))).
  destruct Q as (w & t & s & sg & c & fee & E & _ & _ & _ & _ & _ & A & B & _);
    [cbn; lia | apply Forall_cons; [cbn; lia | apply Forall_nil] | reflexivity | intros x I; apply repeat_spec in I; subst x; lia | cbn; lia | cbn; lia | cbn; lia | cbn; lia |].
  exists w, t, c, fee. split; [exact E |]. split; [exact A | exact B].
Qed.

(** ** C76: which output is spent *)
(** "first utxo with enough ADA": the loop has no break, so the last one is taken... *)
Theorem C76_last_partial : forall pre u post, 6200000 <= InAmount u -> Forall (fun v => InAmount v < 6200000) post -> firstMatchInput (pre ++ u :: post) = u.
Proof. intros pre u post A B. apply first_match_last; assumption. Qed.
Print Assumptions C76_last_partial.
(** ... and the first only if no later one is large enough. *)
Theorem C76_first_refuted : forall pre u mid v post, Forall (fun x => InAmount x < 6200000) pre -> 6200000 <= InAmount u -> 6200000 <= InAmount v -> u <> v -> Forall (fun x => InAmount x < 6200000) post ->
  let utxos := pre ++ u :: mid ++ v :: post in
  find (fun x => 6200000 <=? InAmount x) utxos = Some u /\ firstMatchInput utxos <> u.
Proof.
  intros pre u mid v post HP HU HV NE HQ utxos. split.
  - unfold utxos. induction HP as [|x pre X _ IH]; cbn [app find]; [rewrite (proj2 (Z.leb_le _ _) HU); reflexivity | rewrite (proj2 (Z.leb_gt _ _) X); exact IH].
  - unfold utxos. rewrite app_comm_cons, app_assoc. rewrite (first_match_last (pre ++ u :: mid) v post HV HQ). congruence.
Qed.
Print Assumptions C76_first_refuted.
Example C76_example : exists u v, u <> v /\ firstMatchInput [ex_input 5; u; ex_input 7; v; ex_input 8] = v /\ 6200000 <= InAmount u /\ 6200000 <= InAmount v.
Proof. exists (ex_input 6200000), (ex_input 6300000). split; [discriminate |]. split; [reflexivity |]. cbn. lia. Qed.

(** Without a large enough output a transaction is built all the same. It spends an output with the empty hash and value 0,
    and its outputs and fee add up to a positive multiple of 2^64. *)
Lemma first_match_none utxos : Forall (fun v => InAmount v < 6200000) utxos -> firstMatchInput utxos = {| TxHash := []; Index := 0; InAmount := 0 |}.
Proof.
  intros HP. unfold firstMatchInput. change minRequired with 6200000. induction HP as [|v post V _ IH]; [reflexivity |]. cbn [fold_left]. rewrite (proj2 (Z.leb_gt _ _) V). exact IH.
Qed.
Theorem C76_nothing_refuted : forall (H : Hashes) (MO : MapOrder) (U : Unicode) (R : Runtime) fees root text receiver utxos slot,
  hashes_ok -> runtime_order -> root_key root ->
  let vk := public_key_of (path_key hmac_sha512 root payment_path) in
  let sk := public_key_of (path_key hmac_sha512 root stake_path) in
  let source := base_layout 0 false false (blake2b_224 vk) (blake2b_224 sk) in
  receiver_is text (ABase {| ba_net := TestNet; ba_pay := NewKeyStakeCredential (blake2b_224 vk); ba_stake := NewKeyStakeCredential (blake2b_224 sk) |}) receiver ->
  Forall (fun v => InAmount v < 6200000) utxos ->
  exists w t c, payment fees root text utxos slot = Ok (w, t) /\ let B := Body (load w t) in
    map (fun i => (TxHash i, Index i, InAmount i)) (Inputs B) = [([], 0, 0)] /\
    map (fun o => (addr_bytes (OutAddress o), OutAmount o)) (Outputs B) = [(addr_bytes receiver, 5000000); (source, c)] /\
    0 <= c /\ 0 <= Fee B /\ exists k, 0 < k /\ 5000000 + c + Fee B = k * 2 ^ 64.
Proof.
  intros H MO U R fees root text receiver utxos slot HO RO RK vk sk source RI HP. set (u := {| TxHash := []; Index := 0; InAmount := 0 |}).
  destruct (C73_base_address H TestNet root HO RK) as (EG & K & _ & KB & _). fold vk sk in EG. set (prv := path_key hmac_sha512 root payment_path) in *.
  set (src := {| ba_net := TestNet; ba_pay := {| Kind := 0; Payload := blake2b_224 vk |}; ba_stake := {| Kind := 0; Payload := blake2b_224 sk |} |}) in *.
  change {| ba_net := TestNet; ba_pay := NewKeyStakeCredential (blake2b_224 vk); ba_stake := NewKeyStakeCredential (blake2b_224 sk) |} with src in RI.
  destruct (C73_text H U R TestNet root src prv HO RK (or_intror eq_refl) EG) as (SO & tx0 & Et0 & _ & Nt0).
  assert (PS : payable (ABase src)) by (split; [exact SO | intros []]).
  assert (PR : payable receiver) by (destruct RI as [[_ ->] | (_ & _ & PR)]; assumption).
  assert (ES : addr_bytes (ABase src) = source).
  { cbn [addr_bytes]. destruct SO as [[P Q] _]. rewrite base_layout_lemma by (try assumption; cbn; lia). reflexivity. }
  pose proof (@tx_crypto_hash H HO) as HH. pose proof (@tx_crypto_sizes H) as KS.
  set (o := {| OutAddress := receiver; OutAmount := u64 sendAmount |}).
  destruct (@base_reachable (tx_crypto H) MO fees prv u o slot) as (RW & NB & EK & EF & ET). set (w0 := @run (tx_crypto H) MO empty_world (base_ops fees prv u o slot)) in *.
  set (t0 := builder_tx w0 0) in *.
  assert (TTLr : 0 <= payment_ttl slot < 2 ^ 32) by (apply Z.mod_pos_bound; lia).
  assert (K0 : tx_ok t0).
  { rewrite ET. split; [| split; [split; [constructor | cbn; lia] | exact Logic.I]]. unfold body_ok. cbn [Body Inputs Outputs Fee TTL AuxHash].
    split; [apply Forall_cons; [| apply Forall_nil]; split; [intros x [] |]; split; cbn; lia |].
    split; [apply Forall_cons; [| apply Forall_nil]; apply (payable_out receiver); [exact PR | vm_compute; split; [discriminate | reflexivity]] |]. split; [cbn; lia |]. split; [cbn; lia |]. split; [lia |]. split; [exact TTLr |]. split; [intros x [] | cbn; lia]. }
  set (w1 := @add_change_if_needed (tx_crypto H) MO w0 0 (ABase src)).
  assert (RW1 : @reachable (tx_crypto H) MO w1) by exact (@reachable_step (tx_crypto H) MO w0 (OAddChange 0 (ABase src)) RW NB).
  assert (NB1 : (0 < nbuilders w1)%nat) by (unfold w1; rewrite add_change_eq; exact NB).
  assert (EK1 : builder_keys w1 0 = [prv]) by (unfold w1; rewrite keys_add_change; exact EK).
  pose proof (@reachable_inv (tx_crypto H) MO w0 RW) as I0.
  assert (K1 : tx_ok (builder_tx w1 0)).
  { unfold w1. rewrite (add_change_tx w0 0 (ABase src) I0 NB). fold t0. destruct K0 as ((B1 & B2 & B3 & B4 & B5 & B6 & B7 & B8) & W & M). split; [| split; [| exact M]].
    - split; [exact B1 |]. split; [apply Forall_app; split; [exact B2 |]; apply Forall_cons; [| apply Forall_nil]; apply payable_out; [exact PS | apply u64_range] |]. split; [exact B3 |].
      split; [rewrite ET; cbn; lia |]. split; [| split; [exact B6 |]; split; [exact B7 | exact B8]].
      cbn [Body add_change add_outputs set_fee Fee]. unfold mf. rewrite min_fee_spec; [apply u64_range | assumption | assumption | | ]; fold t0; [split; [repeat (split; [assumption |]); assumption | split; assumption] | rewrite ET; cbn; lia].
    - cbn [Witness]. rewrite mf_wit_eq. apply fee_wit_ok. exact W. }
  destruct (C69_total H MO w1 0 HO RO K1) as (w2 & t2 & EB); [intros k I; rewrite EK1 in I; destruct I as [<- | []]; exact K |].
  set (T := load w2 t2).
  assert (EP : payment fees root text utxos slot = Ok (w2, t2)).
  { unfold payment. rewrite EG. cbn [bind]. rewrite (first_match_none utxos HP). fold u.
    assert (EW : @run (tx_crypto H) MO empty_world (payment_ops fees prv u receiver (ABase src) slot) = w1) by reflexivity.
    destruct RI as [[-> ->] | (TN & TE & _)].
    - rewrite Et0. cbn [bind]. rewrite Nt0. cbn [bind]. cbv zeta. rewrite EW, EB. reflexivity.
    - destruct text as [|c0 text]; [contradiction |]. cbn [bind]. rewrite TE. cbn [bind]. cbv zeta. rewrite EW, EB. reflexivity. }
  destruct (@change_then_build (tx_crypto H) MO w0 0 (ABase src) w2 t2 RO HH KS I0 NB) as (c & Ec & E1 & E2 & E3 & E4 & E5 & E6 & W1 & W2 & KT);
    [exact K0 | fold t0; rewrite ET; cbn; lia | rewrite EK; cbn; lia | intros c Hc; apply payable_out; assumption | exact EB |].
  fold t0 T in Ec, E1, E2, E3, E4, E5, E6, W1, W2, KT. rewrite EF in Ec, E5. rewrite EK in W2.
  exists w2, t2, c. split; [exact EP |]. cbv zeta. fold T. split; [rewrite E1, ET; reflexivity |].
  split; [rewrite E2, ET; cbn [Body Outputs app map]; unfold o; cbn [OutAddress OutAmount]; rewrite ES; reflexivity |].
  assert (SI : sum_in (Body t0) = 0) by (rewrite ET; reflexivity). assert (SOu : sum_out (Body t0) = 5000000) by (rewrite ET; reflexivity). rewrite SI, SOu in Ec. rewrite E5.
  set (fee := fee_for fees t0 _) in *. assert (FB : 0 <= fee < 2 ^ 64) by apply u64_range. assert (CB : 0 <= c < 2 ^ 64) by (rewrite Ec; apply u64_range).
  split; [lia |]. split; [lia |]. unfold u64 in Ec. pose proof (Z.div_mod (0 - 5000000 - fee) (2 ^ 64) ltac:(lia)) as D. rewrite <- Ec in D. exists (- ((0 - 5000000 - fee) / 2 ^ 64)). lia.
Qed.
Print Assumptions C76_nothing_refuted.
