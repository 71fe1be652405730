(** Byron addresses. *)
From Verif.Model Require Import Base Utf8 Bech32 Hex Base58 Crc32 Cbor Network Address.
From Verif.Spec Require Import CborSpec Utf8Spec CrcSpec ByronSpec Cip19 AddressSpec Base58Spec.
From Verif.Spec Require Export Values.
From Verif.Proofs Require Import Util Utf8Facts Bech32Facts CborFacts CborParse CrcFacts CrcSpecFacts Base58Facts AddressFacts.

Definition inner_of (b : ByronAddress) : item := byron_inner (by_hash b) (byron_attrs (by_payload b) (by_network b)) (by_tag b).

Lemma byron_ok_wf b : byron_ok b -> byron_wf b.
Proof. intros ([L H] & P & PL & N & T). unfold byron_wf, zlen in *. rewrite L, T. split; [exact H |]. split; [lia |]. split; [exact P |]. split; [lia |]. split; [exact N | lia]. Qed.

Lemma inner_ok_wf b : byron_wf b -> item_ok (inner_of b).
Proof.
  intros (H & HL & P & PL & N & T). unfold inner_of, byron_inner, byron_attrs, zlen in *.
  destruct (by_payload b) as [| x p] eqn:E, (by_network b) as [n |]; cbn [app item_ok fold_right length] in *;
    repeat split; try lia; auto; try (apply H; assumption); try (apply P; assumption).
Qed.

Lemma raw_inner_wf b : byron_wf b -> byron_raw b = cbor (inner_of b).
Proof.
  intros (H & HL & P & PL & N & T). unfold byron_raw, inner_of, byron_inner, byron_attrs.
  cbn [cbor flat_map]. rewrite (enc_bytes_spec (by_hash b)) by lia. rewrite (enc_uint_spec (by_tag b)) by lia.
  unfold enc_array_head, enc_map_head. rewrite (enc_head_spec 4) by lia.
  cbn [length]. change (Z.of_nat 3) with 3. cbn [app]. f_equal. rewrite app_nil_r. f_equal. rewrite !app_assoc. f_equal.
  destruct (by_payload b) as [| x p] eqn:E, (by_network b) as [n |]; cbn [app flat_map length].
  - rewrite (enc_head_spec 5), (enc_uint_spec 2), (enc_uint_spec n) by lia. cbn [cbor]. rewrite !app_nil_r. reflexivity.
  - reflexivity.
  - rewrite (enc_head_spec 5), (enc_uint_spec 1), (enc_uint_spec 2), (enc_uint_spec n), enc_bytes_spec by (try lia; unfold zlen in *; lia). cbn [cbor].
    rewrite ?app_nil_r, <- ?app_assoc. reflexivity.
  - rewrite (enc_head_spec 5), (enc_uint_spec 1), enc_bytes_spec by (try lia; unfold zlen in *; lia). cbn [cbor].
    rewrite ?app_nil_r, <- ?app_assoc. reflexivity.
Qed.

Lemma raw_bytes_wf b : byron_wf b -> bytes_ok (byron_raw b).
Proof. intros H. rewrite raw_inner_wf by auto. apply cbor_bytes_ok, inner_ok_wf; auto. Qed.

Lemma head_length t n : (length (head t n) <= 9)%nat.
Proof. unfold head. repeat match goal with |- context [if ?b then _ else _] => destruct b end; cbn [length]; rewrite ?be_length; lia. Qed.

Lemma raw_length_wf b : byron_wf b -> zlen (byron_raw b) <= zlen (by_hash b) + zlen (by_payload b) + 72.
Proof.
  intros K. rewrite raw_inner_wf by auto. unfold inner_of, byron_inner, byron_attrs, zlen.
  destruct (by_payload b) as [| x p] eqn:E, (by_network b) as [n |]; cbn [cbor flat_map app]; rewrite ?app_length; cbn [length];
    repeat match goal with |- context [length (head ?t ?n)] => pose proof (head_length t n); generalize dependent (length (head t n)); intros end;
    rewrite ?app_length; cbn [length]; lia.
Qed.

Lemma outer_ok raw : bytes_ok raw -> zlen raw < 2 ^ 64 -> item_ok (byron_outer raw).
Proof.
  intros B L. unfold byron_outer. cbn [item_ok fold_right length]. pose proof (crc32_range raw B). rewrite <- crc32_spec by auto.
  unfold zlen in L. apply all_bytes_ok in B. repeat split; try lia; apply B; assumption.
Qed.
Lemma outer_ok_wf b : byron_wf b -> item_ok (byron_outer (byron_raw b)).
Proof. intros K. apply outer_ok; [apply raw_bytes_wf; auto |]. pose proof (raw_length_wf b K). destruct K as (_ & ? & _ & ? & _). lia. Qed.

Lemma byron_bytes_outer_wf b : byron_wf b -> byron_bytes b = cbor (byron_outer (byron_raw b)).
Proof.
  intros K. pose proof (raw_bytes_wf b K) as B. pose proof (raw_length_wf b K) as L.
  destruct K as (_ & HL & _ & PL & _ & _).
  unfold byron_bytes, byron_outer. rewrite <- crc32_spec by auto. cbn [cbor flat_map].
  pose proof (crc32_range _ B). unfold enc_array_head, enc_tag_head.
  rewrite !enc_head_spec, enc_bytes_spec, enc_uint_spec by lia. cbn [cbor length]. rewrite ?app_nil_r, <- ?app_assoc. reflexivity.
Qed.

Lemma inner_ok b : byron_ok b -> item_ok (inner_of b).
Proof. intros K. apply inner_ok_wf, byron_ok_wf, K. Qed.
Lemma raw_inner b : byron_ok b -> byron_raw b = cbor (inner_of b).
Proof. intros K. apply raw_inner_wf, byron_ok_wf, K. Qed.
Lemma raw_bytes b : byron_ok b -> bytes_ok (byron_raw b).
Proof. intros K. apply raw_bytes_wf, byron_ok_wf, K. Qed.
Lemma raw_length b : byron_ok b -> zlen (byron_raw b) <= zlen (by_payload b) + 100.
Proof. intros K. pose proof (raw_length_wf b (byron_ok_wf b K)). assert (zlen (by_hash b) = 28) by (unfold zlen; destruct K as ([-> _] & _); reflexivity). lia. Qed.
Lemma byron_bytes_outer b : byron_ok b -> byron_bytes b = cbor (byron_outer (cbor (inner_of b))).
Proof. intros K. rewrite <- raw_inner by auto. apply byron_bytes_outer_wf, byron_ok_wf, K. Qed.
Lemma byron_bytes_ok b : byron_ok b -> bytes_ok (byron_bytes b).
Proof. intros K. rewrite byron_bytes_outer_wf by (apply byron_ok_wf; auto). apply cbor_bytes_ok, outer_ok_wf, byron_ok_wf, K. Qed.

Lemma byron_head b : byron_ok b -> exists r, byron_bytes b = 0x82 :: 0xd8 :: 0x18 :: r.
Proof. intros K. rewrite byron_bytes_outer by auto. unfold byron_outer. cbn [cbor flat_map length]. eexists. reflexivity. Qed.

Lemma outer_readable raw : readable (byron_outer raw).
Proof. unfold readable, byron_outer. cbn [nesting widest fold_right length]. lia. Qed.
Lemma inner_readable b : readable (inner_of b).
Proof. unfold readable, inner_of, byron_inner, byron_attrs. destruct (by_payload b), (by_network b); cbn [nesting widest fold_right length app]; lia. Qed.
Lemma byron_roundtrip_unmarshal b r : byron_ok b -> byron_unmarshal (byron_bytes b ++ r) = Ok b.
Proof.
  intros K. pose proof (raw_bytes b K) as B. pose proof (raw_length b K) as L.
  assert (PL : zlen (by_payload b) < 2 ^ 32) by apply K. pose proof (crc32_range _ B) as C.
  unfold byron_unmarshal. rewrite byron_bytes_outer by auto. rewrite <- raw_inner by auto.
  rewrite read_item_cbor; [| apply outer_ok; auto; lia | apply outer_readable].
  unfold byron_outer. rewrite <- crc32_spec by auto. cbn [cval_of map is_nil to_uint strip_self Z.eqb Pos.eqb].
  change (2 ^ 32) with 4294967296 in C. replace (crc32 (byron_raw b) <=? 4294967295) with true by lia.
  cbn [negb Z.eqb Pos.eqb]. rewrite Z.eqb_refl. cbn [negb].
  rewrite raw_inner by auto. rewrite <- (app_nil_r (cbor (inner_of b))). rewrite read_item_cbor; [| apply inner_ok; auto | apply inner_readable].
  destruct K as ([LH H] & P & _ & N & T). unfold inner_of, byron_inner, byron_attrs.
  destruct b as [h pl nw tg]. cbn [by_hash by_payload by_network by_tag] in *. subst tg.
  destruct pl as [| x pl], nw as [n |]; cbn [app cval_of map strip_tags to_byteslice to_attrs attrs_of_pairs attr_field Z.eqb Pos.eqb orb to_uint to_uint8_ptr is_nil];
    unfold to_uint8_ptr; cbn [is_nil to_uint];
    try (replace (n <=? 255) with true by lia);
    change (0 <=? 2 ^ 64 - 1) with true; cbn beta iota; rewrite LH; cbn [Nat.eqb negb orb Z.eqb]; reflexivity.
Qed.

Lemma byron_parse b r spare : byron_ok b -> NewAddressFromBytes (byron_bytes b ++ r) spare = Ok (AByron b).
Proof.
  intros K. pose proof (byron_roundtrip_unmarshal b r K) as U. destruct (byron_head b K) as (t & E). rewrite E in *.
  unfold NewAddressFromBytes, index. cbn [app nth_error bind] in *.
  change (Z.shiftr (Z.land 130 240) 4 =? 8) with true. cbn beta iota. rewrite U. reflexivity.
Qed.

(** ** Text *)
Lemma byron_text {U : Unicode} {R : Runtime} b : byron_ok b ->
  has_prefix (b58_encode (byron_bytes b)) (str "addr") = false ->
  has_prefix (b58_encode (byron_bytes b)) (str "stake") = false ->
  addr_string (AByron b) = Ok (b58_encode (byron_bytes b)) /\ NewAddress (b58_encode (byron_bytes b)) = Ok (AByron b).
Proof.
  intros K H1 H2. split; [reflexivity |]. unfold NewAddress. rewrite H1, H2. cbn [orb].
  rewrite b58_roundtrip by (apply byron_bytes_ok; auto). rewrite <- (app_nil_r (byron_bytes b)). apply byron_parse; auto.
Qed.

(** Base58 text that starts with four given digits pins the number down to one part in 58^4. *)
Definition clash (a m k : Z) : bool := (a * 58 ^ k <? (0x82d818 + 1) * 256 ^ m) && (0x82d818 * 256 ^ m <? (a + 1) * 58 ^ k).

Lemma has_prefix_split s p : has_prefix s p = true -> exists t, s = p ++ t.
Proof.
  revert s. induction p as [| y p IH]; intros s H; [exists s; reflexivity |].
  destruct s as [| x s]; [discriminate |]. cbn in H. apply andb_true_iff in H as [E H]. apply Z.eqb_eq in E. subst.
  destruct (IH s H) as (t & ->). exists t. reflexivity.
Qed.

Lemma text_clash (b p : bytes) r : bytes_ok b -> b = 0x82 :: 0xd8 :: 0x18 :: r -> (forall c, In c p -> b58_char c) -> nth 0 p 0 <> 49 -> p <> [] ->
  has_prefix (b58_encode b) p = true -> exists k, 0 <= k < 2 * zlen r + 4 /\ clash (pos_value 58 (map b58_digit p)) (zlen r) k = true.
Proof.
  intros B E Cp Np NEp H. apply has_prefix_split in H as (t & Ht).
  destruct (encode_text b B) as (k & s & c & E1 & E2 & Cs & Ns & Nc & V).
  assert (k = 0%nat) by (rewrite E in E2; destruct k; [reflexivity | discriminate]). subst k. cbn [repeat app] in E1, E2. subst c.
  rewrite Ht in E1. subst s. clear Ns Nc.
  rewrite map_app, !pos_value_bev, bev_app in V.
  set (a := pos_value 58 (map b58_digit p)). 
  assert (Ea : bev 58 (map b58_digit p) = a) by (unfold a; rewrite pos_value_bev; reflexivity). rewrite Ea in V.
  assert (Rt : Forall (fun d => 0 <= d < 58) (map b58_digit t)).
  { apply Forall_forall. intros d Hd. apply in_map_iff in Hd as (x & <- & Hx). apply index_char. apply Cs. apply in_or_app. auto. }
  pose proof (bev_range 58 _ ltac:(lia) Rt) as Bt. set (n := zlen (map b58_digit t)) in *.
  rewrite E in V, B. change (0x82 :: 0xd8 :: 0x18 :: r) with ([0x82; 0xd8; 0x18] ++ r) in V, B. rewrite bev_app in V.
  change (bev 256 [0x82; 0xd8; 0x18]) with 0x82d818 in V. apply bytes_ok_app in B as [_ Br].
  pose proof (bev_range 256 r ltac:(lia) Br) as Rr.
  assert (C : clash a (zlen r) n = true) by (unfold clash; apply andb_true_iff; split; apply Z.ltb_lt; lia).
  exists n. split; auto. split; [unfold n, zlen; lia |].
  destruct (Z.lt_ge_cases n (2 * zlen r + 4)) as [| G]; auto. exfalso.
  assert (Pa : 1 <= a).
  { unfold a. rewrite pos_value_bev. destruct p as [| c p]; [contradiction |]. cbn [map] in *. rewrite bev_cons.
    cbn [nth] in Np. destruct (index_char c (Cp c (or_introl eq_refl))) as (I & Rc & CO).
    assert (b58_digit c <> 0). { intros Q. rewrite Q in CO. apply Np. rewrite <- CO. reflexivity. }
    assert (Rp : Forall (fun d => 0 <= d < 58) (map b58_digit p)).
    { apply Forall_forall. intros d Hd. apply in_map_iff in Hd as (x & <- & Hx). apply index_char. apply Cp. right. auto. }
    pose proof (bev_range 58 _ ltac:(lia) Rp). assert (0 < 58 ^ zlen (map b58_digit p)) by (apply Z.pow_pos_nonneg; unfold zlen; lia). nia. }
  assert (L : 256 ^ zlen r * 0x82d819 <= 58 ^ n).
  { apply Z.le_trans with (58 ^ (2 * zlen r + 4)); [| apply Z.pow_le_mono_r; lia].
    rewrite Z.pow_add_r, Z.pow_mul_r by (unfold zlen; lia). change (58 ^ 4) with 11316496. change (58 ^ 2) with 3364.
    assert (256 ^ zlen r <= 3364 ^ zlen r) by (apply Z.pow_le_mono_l; lia).
    assert (0 < 256 ^ zlen r) by (apply Z.pow_pos_nonneg; unfold zlen; lia). nia. }
  unfold clash in C. apply andb_true_iff in C as [C _]. apply Z.ltb_lt in C. nia.
Qed.

(** The digits of "addr" and "stak". *)
Definition dig_addr : Z := Eval vm_compute in pos_value 58 (map b58_digit (str "addr")).
Definition dig_stak : Z := Eval vm_compute in pos_value 58 (map b58_digit (str "stak")).

(** For each m an exponent k with (a+1) 58^k <= 0x82d818 256^m and 0x82d819 256^m <= a 58^(k+1): then no
    number a.... in base 58 equals a number 82 d8 18 .... in base 256. The ratio 256^m / 58^k is kept in
    an interval [lo, hi] of units 2^-80. *)
Definition down (a : Z) (p : Z * Z) : Z * Z :=
  let '(lo, hi) := p in if (a + 1) * 58 * 1208925819614629174706176 <=? 0x82d818 * lo then (lo / 58, hi / 58 + 1) else p.
Fixpoint apart (fuel : nat) (a lo hi : Z) : bool :=
  match fuel with
  | O => true
  | S f => let '(lo, hi) := down a (down a (lo, hi)) in
           ((a + 1) * 1208925819614629174706176 <=? 0x82d818 * lo) && (0x82d819 * hi <=? a * 58 * 1208925819614629174706176) && apart f a (256 * lo) (256 * hi)
  end.

Definition near (m k : Z) (p : Z * Z) : Prop := 0 <= k /\ fst p * 58 ^ k <= 2 ^ 80 * 256 ^ m <= snd p * 58 ^ k.

Lemma down_near a m k p : near m k p -> exists k', near m k' (down a p).
Proof.
  intros (K & L & H). destruct p as [lo hi]. cbn [fst snd] in *. unfold down. destruct (_ <=? _); [| exists k; split; auto].
  exists (k + 1). split; [lia |]. cbn [fst snd]. rewrite Z.pow_add_r by lia. change (58 ^ 1) with 58.
  pose proof (Z.mul_div_le lo 58 ltac:(lia)). pose proof (Z.mul_succ_div_gt hi 58 ltac:(lia)).
  assert (0 < 58 ^ k) by (apply Z.pow_pos_nonneg; lia). unfold Z.succ in *. 
  generalize dependent (58 ^ k). generalize (2 ^ 80 * 256 ^ m). intros. nia.
Qed.

Lemma apart_spec a fuel : 0 <= a -> forall lo hi k m0, 0 <= m0 -> near m0 k (lo, hi) -> apart fuel a lo hi = true ->
  forall m j, m0 <= m < m0 + Z.of_nat fuel -> 0 <= j -> clash a m j = false.
Proof.
  intros A. induction fuel as [| f IH]; intros lo hi k m0 M N H m j Hm Hj; [lia |].
  cbn [apart] in H. destruct (down_near a _ _ _ N) as (k1 & N1). destruct (down_near a _ _ _ N1) as (k2 & N2).
  destruct (down a (down a (lo, hi))) as [lo' hi']. destruct N2 as (K2 & L & U). cbn [fst snd] in *.
  change 1208925819614629174706176 with (2 ^ 80) in H. apply andb_true_iff in H as [H HR]. apply andb_true_iff in H as [H1 H2]. apply Z.leb_le in H1, H2.
  assert (PK : 0 < 58 ^ k2) by (apply Z.pow_pos_nonneg; lia).
  destruct (Z.eq_dec m m0) as [-> | Nm].
  - clear IH HR. assert (P2 : 0 < 2 ^ 80) by reflexivity. set (s := 2 ^ 80) in *. clearbody s. unfold clash. set (q := 256 ^ m0) in *. clearbody q. apply andb_false_iff. destruct (Z.le_gt_cases j k2) as [G | G]; [right | left]; apply Z.ltb_ge.
    + assert (J : 58 ^ j <= 58 ^ k2) by (apply Z.pow_le_mono_r; lia). set (x := 58 ^ k2) in *. set (y := 58 ^ j) in *. clearbody x y.
      apply (Z.mul_le_mono_pos_r _ _ s P2).
      apply Z.le_trans with ((a + 1) * s * x); [nia |]. apply Z.le_trans with (8575000 * lo' * x); [nia |]. nia.
    + assert (J : 58 ^ (k2 + 1) <= 58 ^ j) by (apply Z.pow_le_mono_r; lia). rewrite Z.pow_add_r in J by lia. change (58 ^ 1) with 58 in J.
      set (x := 58 ^ k2) in *. set (y := 58 ^ j) in *. clearbody x y.
      apply (Z.mul_le_mono_pos_r _ _ s P2).
      apply Z.le_trans with (8575001 * (hi' * x)); [nia |]. apply Z.le_trans with (a * 58 * s * x); nia.
  - apply (IH (256 * lo') (256 * hi') k2 (m0 + 1)); auto; try lia. split; auto. cbn [fst snd]. rewrite Z.pow_add_r by lia. change (256 ^ 1) with 256.
    split; [replace (256 * lo' * 58 ^ k2) with (256 * (lo' * 58 ^ k2)) by ring | replace (256 * hi' * 58 ^ k2) with (256 * (hi' * 58 ^ k2)) by ring]; replace (2 ^ 80 * (256 ^ m0 * 256)) with (256 * (2 ^ 80 * 256 ^ m0)) by ring; apply Z.mul_le_mono_nonneg_l; lia || auto.
Qed.

Lemma apart_addr : apart 660 dig_addr (256 * 2 ^ 80) (256 * 2 ^ 80) = true.
Proof. vm_compute. reflexivity. Qed.
Lemma apart_stak : apart 660 dig_stak (256 * 2 ^ 80) (256 * 2 ^ 80) = true.
Proof. vm_compute. reflexivity. Qed.

Lemma b58_char_dec c : (49 <= c <= 57 \/ 65 <= c <= 90 \/ 97 <= c <= 122) -> c <> 73 -> c <> 79 -> c <> 108 -> b58_char c.
Proof. intros. split; auto. Qed.

(** The text of a Byron address with a payload of at most 512 bytes is not mistaken for a Shelley one. *)
Lemma byron_prefix b : byron_ok b -> (length (by_payload b) <= 512)%nat ->
  has_prefix (b58_encode (byron_bytes b)) (str "addr") = false /\ has_prefix (b58_encode (byron_bytes b)) (str "stake") = false.
Proof.
  intros K LP. destruct (byron_head b K) as (r & E). pose proof (byron_bytes_ok b K) as B.
  assert (Lr : 1 <= zlen r < 1 + Z.of_nat 660).
  { pose proof (raw_length b K) as L. rewrite byron_bytes_outer in E by auto. rewrite <- raw_inner in E by auto.
    assert (EL : length (0x82 :: 0xd8 :: 0x18 :: r) = length (cbor (byron_outer (byron_raw b)))) by (rewrite E; reflexivity).
    unfold byron_outer in EL. cbn [cbor flat_map length] in EL. rewrite !app_length in EL. cbn [length] in EL.
    change (length (head 4 (Z.of_nat 2))) with 1%nat in EL. change (length (head 6 24)) with 2%nat in EL.
    pose proof (head_pos 2 (Z.of_nat (length (byron_raw b)))).
    pose proof (head_length 2 (Z.of_nat (length (byron_raw b)))). pose proof (head_length 0 (crc_spec (byron_raw b))).
    unfold zlen in *. change (Z.of_nat 660) with 660. lia. }
  assert (G : forall p a, (forall c, In c p -> b58_char c) -> nth 0 p 0 <> 49 -> p <> [] -> pos_value 58 (map b58_digit p) = a -> 0 <= a ->
    apart 660 a (256 * 2 ^ 80) (256 * 2 ^ 80) = true -> has_prefix (b58_encode (byron_bytes b)) p = false).
  { intros p a Cp Np NE Ea Pa Ap. destruct (has_prefix _ p) eqn:Hp; auto. exfalso.
    destruct (text_clash _ p r B E Cp Np NE Hp) as (k & Kk & C). rewrite Ea in C.
    rewrite (apart_spec a 660 Pa (256 * 2 ^ 80) (256 * 2 ^ 80) 0 1) in C; [discriminate | lia | split; [lia | cbn [fst snd]; lia] | exact Ap | exact Lr | lia]. }
  split.
  - apply (G (str "addr") dig_addr); [| discriminate | discriminate | reflexivity | discriminate | exact apart_addr].
    intros c Hc. vm_compute in Hc. repeat (destruct Hc as [<- | Hc]); try contradiction; apply b58_char_dec; lia.
  - assert (H4 : has_prefix (b58_encode (byron_bytes b)) (str "stak") = false).
    { apply (G (str "stak") dig_stak); [| discriminate | discriminate | reflexivity | discriminate | exact apart_stak].
      intros c Hc. vm_compute in Hc. repeat (destruct Hc as [<- | Hc]); try contradiction; apply b58_char_dec; lia. }
    destruct (has_prefix _ (str "stake")) eqn:E5; auto. rewrite <- H4. symmetry.
    apply has_prefix_split in E5 as (t & ->). reflexivity.
Qed.

(** ** What is accepted *)
Lemma crc_spec_range raw : bytes_ok raw -> 0 <= crc_spec raw < 2 ^ 32.
Proof. intros B. rewrite <- crc32_spec by auto. apply crc32_range; auto. Qed.

Lemma byron_bad_sum raw c r spare : all_bytes raw -> zlen raw < 2 ^ 64 -> 0 <= c < 2 ^ 32 -> c <> crc_spec raw ->
  NewAddressFromBytes (cbor (Arr [Tag 24 (Bstr raw); Uint c]) ++ r) spare = Err EByronChecksum.
Proof.
  intros B L C N. assert (B' := B). apply all_bytes_ok in B.
  assert (I : item_ok (Arr [Tag 24 (Bstr raw); Uint c])).
  { cbn [item_ok fold_right length]. unfold zlen in L. repeat split; try lia; apply B'; assumption. }
  unfold NewAddressFromBytes, index. pose proof (read_item_cbor _ r I ltac:(unfold readable; cbn [nesting widest fold_right length]; lia)) as P. cbn [cbor flat_map length] in *.
  change (head 4 (Z.of_nat 2)) with [130] in *. cbn [app nth_error bind] in *.
  change (Z.shiftr (Z.land 130 240) 4 =? 8) with true. cbn beta iota. unfold byron_unmarshal. rewrite P.
  cbn [cval_of map is_nil to_uint strip_self Z.eqb Pos.eqb]. change (2 ^ 32) with 4294967296 in C. replace (c <=? 4294967295) with true by lia.
  cbn [negb Z.eqb Pos.eqb]. rewrite crc32_spec by auto. replace (c =? crc_spec raw) with false by lia. reflexivity.
Qed.

Lemma is_nil_simple s : is_nil (CSimple s) = true -> s = 22 \/ s = 23.
Proof. cbn. lia. Qed.

Lemma is_nil_iff s : is_nil (CSimple s) = true <-> s = 22 \/ s = 23.
Proof. cbn. lia. Qed.
Lemma other_iff t : other_tag t <-> t <> 0 /\ t <> 1 /\ t <> 2 /\ t <> 3.
Proof. unfold other_tag. lia. Qed.
Lemma reads_uint_iff m i : 0 <= m -> forall n, to_uint m (cval_of i) = Some n <-> reads_uint i n /\ n <= m.
Proof.
  intros M. induction i; intros x; cbn [cval_of]; try (split; [discriminate | intros [H _]; inversion H; fail]).
  - cbn [to_uint]. destruct (Z.leb_spec n m) as [L | L]; split; [intros [= <-]; split; [constructor | exact L] | intros [H _]; inversion H; reflexivity | discriminate | intros [H ?]; inversion H; subst; lia].
  - cbn [to_uint builtin_tag_ok]. unfold builtin_tag_ok. destruct (Z.eqb_spec t 0) as [-> | N0].
    { split; [| intros [H _]; inversion H; subst; match goal with X : other_tag 0 |- _ => apply other_iff in X; lia end]. destruct i; cbn [cval_of negb]; try discriminate. }
    destruct (Z.eqb_spec t 1) as [-> | N1].
    { destruct i; cbn [cval_of negb Z.eqb Pos.eqb]; try (split; [discriminate | intros [H _]; inversion H; subst; match goal with X : other_tag 1 |- _ => apply other_iff in X; lia end]).
      - cbn [to_uint]. destruct (Z.leb_spec n m) as [L | L]; split; [intros [= <-]; split; [constructor | exact L] | | discriminate | ]; intros [H ?]; inversion H; subst; try (match goal with X : other_tag 1 |- _ => apply other_iff in X; lia end); [reflexivity | lia]. }
    destruct (Z.eqb_spec t 2) as [-> | N2].
    { destruct i; cbn [cval_of negb Z.eqb Pos.eqb orb]; try (split; [discriminate | intros [H _]; inversion H; subst; match goal with X : other_tag 2 |- _ => apply other_iff in X; lia end]).
      change (big_value b) with (value256 b). destruct (Z.leb_spec (value256 b) m) as [L | L]; split; [intros [= <-]; split; [constructor | exact L] | | discriminate | ]; intros [H ?]; inversion H; subst; try (match goal with X : other_tag 2 |- _ => apply other_iff in X; lia end); [reflexivity | lia]. }
    destruct (Z.eqb_spec t 3) as [-> | N3].
    { split; [destruct i; cbn [cval_of negb orb Z.eqb]; discriminate | intros [H _]; inversion H; subst; match goal with X : other_tag 3 |- _ => apply other_iff in X; lia end]. }
    cbn [orb negb]. rewrite IHi. split; intros [H L]; (split; [| exact L]); [constructor; [apply other_iff; auto | exact H] |]. inversion H; subst; try contradiction. assumption.
  - unfold to_uint. destruct (is_nil (CSimple n)) eqn:E.
    + apply is_nil_iff in E. split; [intros [= <-]; split; [constructor; exact E | exact M] | intros [H _]; inversion H; reflexivity].
    + split; [discriminate |]. intros [H _]. inversion H; subst. match goal with X : _ \/ _ |- _ => apply is_nil_iff in X; congruence end.
Qed.

Lemma all_some_forall2 {A} (f : item -> option A) l : forall b, all_some (map f l) = Some b <-> Forall2 (fun i x => f i = Some x) l b.
Proof.
  induction l as [| a l IH]; intros b; cbn [map all_some]; [split; [intros [= <-]; constructor | inversion 1; reflexivity] |].
  split.
  - destruct (f a) eqn:E; [| discriminate]. destruct (all_some _) eqn:E2; [| discriminate]. intros [= <-]. constructor; [exact E | apply IH; reflexivity].
  - inversion 1 as [| ? x ? r E R]; subst. rewrite E. apply IH in R. rewrite R. reflexivity.
Qed.

Lemma reads_bytes_iff i : forall b, to_byteslice (cval_of i) = Some b <-> reads_bytes i b.
Proof.
  induction i; intros x; cbn [cval_of]; try (split; [discriminate | intros H; inversion H; fail]).
  - split; [intros [= <-]; constructor | inversion 1; reflexivity].
  - cbn [to_byteslice]. rewrite map_map. refine (iff_trans (all_some_forall2 (fun i => to_uint 255 (cval_of i)) l x) _). split; intros H.
    + constructor. induction H as [| i n l b H _ IH]; constructor; auto. apply (reads_uint_iff 255) in H; [| lia]. split; [apply H | lia].
    + inversion H as [| | ? ? F | |]; subst. induction F as [| i n l b [F1 F2] _ IH]; constructor; [apply (reads_uint_iff 255); [lia |]; split; [exact F1 | lia] |]. apply IH. constructor.
      inversion H as [| | ? ? G | |]; subst. inversion G; subst. assumption.
  - cbn [to_byteslice]. unfold builtin_tag_ok. destruct (Z.eqb_spec t 0) as [-> | N0].
    { split; [destruct i; cbn [cval_of negb Z.eqb to_byteslice]; discriminate | intros H; inversion H; subst; match goal with X : other_tag 0 |- _ => apply other_iff in X; lia end]. }
    destruct (Z.eqb_spec t 1) as [-> | N1].
    { split; [destruct i; cbn [cval_of negb Z.eqb Pos.eqb to_byteslice]; discriminate | intros H; inversion H; subst; match goal with X : other_tag 1 |- _ => apply other_iff in X; lia end]. }
    destruct (Z.eqb_spec t 2) as [-> | N2].
    { destruct i; cbn [cval_of negb Z.eqb Pos.eqb orb to_byteslice]; try (split; [discriminate | intros H; inversion H; subst; match goal with X : other_tag 2 |- _ => apply other_iff in X; lia end]).
      split; [intros [= <-]; constructor | intros H; inversion H; subst; [reflexivity | match goal with X : other_tag 2 |- _ => apply other_iff in X; lia end]]. }
    destruct (Z.eqb_spec t 3) as [-> | N3].
    { split; [destruct i; cbn [cval_of negb orb Z.eqb]; discriminate | intros H; inversion H; subst; match goal with X : other_tag 3 |- _ => apply other_iff in X; lia end]. }
    cbn [orb negb]. rewrite IHi. split; intros H; [constructor; [apply other_iff; auto | exact H] |]. inversion H; subst; try contradiction. assumption.
  - unfold to_byteslice. destruct (is_nil (CSimple n)) eqn:E.
    + apply is_nil_iff in E. split; [intros [= <-]; constructor; exact E | intros H; inversion H; reflexivity].
    + split; [discriminate |]. intros H. inversion H; subst. match goal with X : _ \/ _ |- _ => apply is_nil_iff in X; congruence end.
Qed.

Lemma reads_opt_iff i o : to_uint8_ptr (cval_of i) = Some o <-> reads_opt i o.
Proof.
  unfold to_uint8_ptr. destruct (is_nil (cval_of i)) eqn:E.
  - destruct i; try discriminate. cbn [cval_of] in E. apply is_nil_iff in E. split; [intros [= <-]; constructor; exact E |]. intros H. inversion H as [| ? ? F]; subst; [reflexivity |]. specialize (F n eq_refl). lia.
  - assert (N : forall s, i = Simple s -> s <> 22 /\ s <> 23) by (intros s ->; cbn [cval_of is_nil] in E; lia). split.
    + destruct (to_uint 255 (cval_of i)) as [n |] eqn:U; [| discriminate]. intros [= <-]. apply reads_uint_iff in U; [| lia]. constructor; [exact N | apply U | lia].
    + intros H. inversion H as [s F | ? n F R L]; subst; [specialize (N s eq_refl); lia |]. rewrite (proj2 (reads_uint_iff 255 i ltac:(lia) n)) by (split; [exact R | lia]). reflexivity.
Qed.

Lemma strip_tagged i : exists j, strip_tags (cval_of i) = cval_of j /\ tagged j i.
Proof.
  induction i; cbn [cval_of strip_tags]; try (eexists; split; [| constructor]; reflexivity).
  destruct ((_ <=? _) && _) eqn:E; [exists (Tag t i); split; [reflexivity | constructor] |]. destruct IHi as (j & Ej & T). exists j. split; auto. constructor; [unfold other_tag; lia | auto].
Qed.
Lemma strip_tagged_eq j i : tagged j i -> (forall t k, j <> Tag t k) -> strip_tags (cval_of i) = cval_of j.
Proof.
  intros T N. induction T as [| t k O _ IH].
  - destruct j; try reflexivity. exfalso. eapply N. reflexivity.
  - cbn [cval_of strip_tags]. unfold other_tag in O. destruct ((0 <=? t) && (t <=? 3)) eqn:E; [lia | exact IH].
Qed.
Lemma strip_described i : exists j, strip_self (cval_of i) = cval_of j /\ described j i.
Proof.
  induction i; cbn [cval_of strip_self]; try (eexists; split; [| constructor]; reflexivity).
  destruct (Z.eqb_spec t 55799) as [-> | N]; [| exists (Tag t i); split; [reflexivity | constructor]]. destruct IHi as (j & Ej & T). exists j. split; auto. constructor. auto.
Qed.
Lemma strip_described_eq j i : described j i -> (forall k, j <> Tag 55799 k) -> strip_self (cval_of i) = cval_of j.
Proof.
  intros T N. induction T as [| k _ IH].
  - destruct j; try reflexivity. cbn [cval_of strip_self]. destruct (Z.eqb_spec t 55799) as [-> |]; [exfalso; eapply N; reflexivity | reflexivity].
  - cbn [cval_of strip_self Z.eqb Pos.eqb]. exact IH.
Qed.

Lemma arr_inv v l : cval_of v = CArr l -> exists l', v = Arr l' /\ l = map cval_of l'.
Proof. destruct v; try discriminate. cbn. intros H. injection H as <-. eauto. Qed.

Lemma chunks_bytes m b l : chunks m b l -> all_bytes b.
Proof. induction 1; intros x Hx; [contradiction |]. apply in_app_or in Hx as [Hx | Hx]; auto. Qed.

Lemma enc_bstr_bytes b e : enc (Bstr b) e -> all_bytes b.
Proof. intros H. inversion H; subst; auto. eapply chunks_bytes; eauto. Qed.

Lemma enc_arr_bytes t raw v e : enc (Arr [Tag t (Bstr raw); v]) e -> bytes_ok raw.
Proof.
  intros H. apply all_bytes_ok. 
  assert (E : exists d, encs [Tag t (Bstr raw); v] d) by (inversion H; subst; eauto). destruct E as (d & E).
  inversion E; subst. match goal with X : enc (Tag _ _) _ |- _ => inversion X; subst end. eapply enc_bstr_bytes; eauto.
Qed.


(** ** Attributes *)
Fixpoint strings_ok (i : item) : Prop :=
  match i with
  | Bstr b | Tstr b => all_bytes b
  | Arr l => fold_right (fun v P => strings_ok v /\ P) True l
  | Map l => fold_right (fun '(k, v) P => strings_ok k /\ strings_ok v /\ P) True l
  | Tag _ v => strings_ok v
  | _ => True
  end.
Lemma names_dec k i : names k i \/ ~ names k i.
Proof.
  unfold names. destruct i as [n | n | b | b | l | l | t v | n | w n]; try (right; intros [H | [H | H]]; discriminate).
  - destruct (Z.eq_dec n k) as [-> | N]; [auto |]. right. intros [H | [H | H]]; try discriminate. congruence.
  - destruct (Z.eq_dec n (2 ^ 64 - 1 - k)) as [-> | N]; [auto |]. right. intros [H | [H | H]]; try discriminate. congruence.
  - destruct (list_eq_dec Z.eq_dec b [48 + k]) as [-> | N]; [auto |]. right. intros [H | [H | H]]; try discriminate. congruence.
Qed.
Lemma first_total k l : exists o, first k l o.
Proof. induction l as [| [i v] l [o IH]]; [exists None; constructor |]. destruct (names_dec k i); [exists (Some v); constructor; auto | exists o; constructor; auto]. Qed.
Lemma attr_cases k : strings_ok k -> (~ key k /\ attr_field (cval_of k) = None) \/
  (key k /\ exists f, attr_field (cval_of k) = Some f /\ (f = 1 <-> names 1 k) /\ (f = 2 <-> names 2 k)).
Proof.
  intros T. destruct k as [n | n | b | b | l | l | t v | n | w n]; cbn [cval_of attr_field];
    try (left; split; [intros [(? & [? | ?]) | (? & ? & _)]; discriminate | reflexivity]).
  - right. split; [left; exists n; auto |]. eexists. split; [reflexivity |]. unfold names. destruct (Z.eqb_spec n 1) as [-> | N1]; [| destruct (Z.eqb_spec n 2) as [-> | N2]]; cbn [orb]; split; split; intros H; auto; try lia;
      destruct H as [H | [H | H]]; try discriminate; congruence.
  - right. split; [left; exists n; auto |]. eexists. split; [reflexivity |]. unfold names. set (m := 2 ^ 64 - 1 - n).
    assert (E : forall k, Nint n = Uint k \/ Nint n = Nint (2 ^ 64 - 1 - k) \/ Nint n = Tstr [48 + k] <-> m = k).
    { subst m. intros k. generalize (2 ^ 64 - 1). intros q. split.
      - intros [H | [H | H]]; [discriminate H | | discriminate H]. apply (f_equal (fun i => match i with Nint a => a | _ => 0 end)) in H. cbv beta iota in H. lia.
      - intros H. right; left. f_equal. lia. }
    rewrite !E. clearbody m. destruct (Z.eqb_spec m 1) as [-> | N1]; [| destruct (Z.eqb_spec m 2) as [-> | N2]]; cbn [orb]; split; split; intros H; auto; try lia; congruence.
  - cbn [strings_ok] in T. apply all_bytes_ok in T. pose proof (utf8_valid_iff b T) as V. destruct (utf8_valid b).
    + right. split; [right; exists b; split; [reflexivity | apply V; reflexivity] |]. eexists. split; [reflexivity |]. unfold names.
      assert (E : forall k, Tstr b = Uint k \/ Tstr b = Nint (2 ^ 64 - 1 - k) \/ Tstr b = Tstr [48 + k] <-> b = [48 + k]).
      { intros k. split; [intros [H | [H | H]]; try discriminate; congruence | intros ->; auto]. }
      rewrite !E. change (str "1") with [48 + 1]. change (str "2") with [48 + 2]. destruct (bytes_eqb b [48 + 1]) eqn:E1; [apply bytes_eqb_eq in E1; subst b | apply bytes_eqb_neq in E1].
      * split; split; intros H; auto; try lia. discriminate.
      * destruct (bytes_eqb b [48 + 2]) eqn:E2; [apply bytes_eqb_eq in E2; subst b | apply bytes_eqb_neq in E2]; split; split; intros H; auto; try lia; contradiction.
    + left. split; [| reflexivity]. intros [(? & [? | ?]) | (s & [= <-] & U)]; try discriminate. apply V in U. discriminate.
Qed.
Lemma names_one k : names 1 k -> names 2 k -> False.
Proof. intros [-> | [-> | ->]] [H | [H | H]]; discriminate. Qed.
Definition pair_of (kv : item * item) : cval * cval := (cval_of (fst kv), cval_of (snd kv)).
Lemma attrs_iff l : Forall (fun kv => strings_ok (fst kv)) l -> forall pl nw p n, attrs_of_pairs (map pair_of l) pl nw = Some (p, n) <->
  Forall (fun kv => key (fst kv)) l /\ exists vp vn, first 1 l vp /\ first 2 l vn /\
    match pl with Some p0 => p = p0 | None => match vp with Some v => reads_bytes v p | None => p = [] end end /\
    match nw with Some n0 => n = n0 | None => match vn with Some v => reads_opt v n | None => n = None end end.
Proof.
  induction l as [| [k v] l IH]; intros T pl nw p n; cbn [map attrs_of_pairs].
  - split.
    + intros [= <- <-]. split; [constructor |]. exists None, None. split; [constructor |]. split; [constructor |]. destruct pl, nw; auto.
    + intros (_ & vp & vn & F1 & F2 & P & N). inversion F1; subst. inversion F2; subst. destruct pl, nw; subst; reflexivity.
  - inversion T as [| ? ? T1 T2]; subst. cbn [fst] in T1. specialize (IH T2). unfold pair_of at 1. cbn [fst snd].
    destruct (attr_cases k T1) as [[NK ->] | (K & f & -> & E1 & E2)].
    { split; [discriminate |]. intros [F _]. inversion F; subst. contradiction. }
    destruct (Z.eqb_spec f 1) as [-> | N1].
    { assert (M1 : names 1 k) by (apply E1; reflexivity). assert (M2 : ~ names 2 k) by (intros M2; exact (names_one k M1 M2)).
      destruct pl as [p0 |].
      - rewrite IH. split; intros (F & vp & vn & F1 & F2 & P & N).
        + split; [constructor; auto |]. exists (Some v), vn. split; [constructor; auto |]. split; [constructor; auto |]. auto.
        + inversion F; subst. split; [assumption |]. destruct (first_total 1 l) as [vp' F1']. inversion F2; subst; [contradiction |]. exists vp', vn. auto.
      - destruct (to_byteslice (cval_of v)) as [b |] eqn:EB.
        + rewrite IH. apply reads_bytes_iff in EB. split; intros (F & vp & vn & F1 & F2 & P & N).
          * subst p. split; [constructor; auto |]. exists (Some v), vn. split; [constructor; auto |]. split; [constructor; auto |]. auto.
          * inversion F; subst. split; [assumption |]. destruct (first_total 1 l) as [vp' F1']. inversion F2; subst; [contradiction |]. inversion F1; subst; [| contradiction]. exists vp', vn. split; [auto |]. split; [auto |]. split; [| auto].
            apply reads_bytes_iff in EB, P. congruence.
        + split; [discriminate |]. intros (F & vp & vn & F1 & F2 & P & N). inversion F1; subst; [| contradiction]. apply reads_bytes_iff in P. congruence. }
    assert (M1 : ~ names 1 k) by (intros M; apply E1 in M; contradiction).
    destruct (Z.eqb_spec f 2) as [-> | N2].
    { assert (M2 : names 2 k) by (apply E2; reflexivity).
      destruct nw as [n0 |].
      - rewrite IH. split; intros (F & vp & vn & F1 & F2 & P & N).
        + split; [constructor; auto |]. exists vp, (Some v). split; [constructor; auto |]. split; [constructor; auto |]. auto.
        + inversion F; subst. split; [assumption |]. destruct (first_total 2 l) as [vn' F2']. inversion F1; subst; [contradiction |]. exists vp, vn'. auto.
      - destruct (to_uint8_ptr (cval_of v)) as [b |] eqn:EB.
        + rewrite IH. apply reads_opt_iff in EB. split; intros (F & vp & vn & F1 & F2 & P & N).
          * subst n. split; [constructor; auto |]. exists vp, (Some v). split; [constructor; auto |]. split; [constructor; auto |]. auto.
          * inversion F; subst. split; [assumption |]. destruct (first_total 2 l) as [vn' F2']. inversion F1; subst; [contradiction |]. inversion F2; subst; [| contradiction]. exists vp, vn'. split; [auto |]. split; [auto |]. split; [auto |].
            apply reads_opt_iff in EB, N. congruence.
        + split; [discriminate |]. intros (F & vp & vn & F1 & F2 & P & N). inversion F2; subst; [| contradiction]. apply reads_opt_iff in N. congruence. }
    assert (M2 : ~ names 2 k) by (intros M; apply E2 in M; contradiction).
    rewrite IH. split; intros (F & vp & vn & F1 & F2 & P & N).
    + split; [constructor; auto |]. exists vp, vn. split; [constructor; auto |]. split; [constructor; auto |]. auto.
    + inversion F; subst. split; [assumption |]. inversion F1; subst; [contradiction |]. inversion F2; subst; [contradiction |]. exists vp, vn. auto.
Qed.
Lemma to_attrs_iff va p n : strings_ok va -> (to_attrs (cval_of va) = Some (p, n) <-> exists va', tagged va' va /\ reads_attrs va' p n).
Proof.
  intros T. unfold to_attrs.
  assert (M : forall l, map (fun '(k, v) => (cval_of k, cval_of v)) l = map pair_of l) by (intros l; apply map_ext; intros [k v]; reflexivity).
  assert (TT : forall j i, tagged j i -> strings_ok i -> strings_ok j) by (induction 1; auto).
  assert (TK : forall l, strings_ok (Map l) -> Forall (fun kv => strings_ok (fst kv)) l).
  { induction l as [| [k v] l IH]; intros H; constructor; [apply H | apply IH; apply H]. }
  split.
  - destruct (strip_tagged va) as (j & -> & TJ). destruct j as [m | m | b | b | l | l | t v | m | w m]; cbn [cval_of]; try discriminate.
    + rewrite M. intros H. apply attrs_iff in H; [| apply TK, (TT _ _ TJ T)]. destruct H as (K & vp & vn & F1 & F2 & P & N). exists (Map l). split; [exact TJ |]. econstructor; eauto.
    + destruct ((m =? 22) || (m =? 23)) eqn:E; [| discriminate]. intros [= <- <-]. exists (Simple m). split; [exact TJ |]. constructor. lia.
  - intros (j & TJ & R). rewrite (strip_tagged_eq j va TJ) by (intros t k ->; inversion R). inversion R as [s S | l vp vn ? ? K F1 F2 P N]; subst; cbn [cval_of].
    + replace ((s =? 22) || (s =? 23)) with true by lia. reflexivity.
    + rewrite M. apply attrs_iff; [apply TK, (TT _ _ TJ T) |]. split; [exact K |]. exists vp, vn. auto.
Qed.
Scheme enc_m := Minimality for enc Sort Prop with encs_m := Minimality for encs Sort Prop with encp_m := Minimality for encp Sort Prop.
Lemma enc_strings i e : enc i e -> strings_ok i.
Proof.
  apply (enc_m (fun i _ => strings_ok i) (fun l _ => strings_ok (Arr l)) (fun l _ => strings_ok (Map l))); intros; cbn [strings_ok fold_right]; auto;
    try (eapply chunks_bytes; eauto).
Qed.
Lemma described_strings j i : described j i -> strings_ok i -> strings_ok j.
Proof. induction 1; auto. Qed.
Lemma tagged_strings j i : tagged j i -> strings_ok i -> strings_ok j.
Proof. induction 1; auto. Qed.

(** ** What is accepted *)
Lemma byron_accepted d b : bytes_ok d ->
  (byron_unmarshal d = Ok b <-> byron_reads d (by_hash b) (by_payload b) (by_network b) /\ by_tag b = 0).
Proof.
  intros B. unfold byron_unmarshal. split.
  - intros H. destruct (read_item d) as [v |] eqn:P; [| discriminate].
    apply (read_item_iff d v B) in P as (i & e & tail & Ed & Ee & Ri & ->).
    destruct (cval_of i) as [| | | | l | | | |] eqn:Ei; try discriminate. apply arr_inv in Ei as (il & -> & El).
    destruct il as [| i1 [| i2 [| i3 il]]]; cbn [map] in El; subst l; try discriminate.
    pose proof (enc_strings _ _ Ee) as St. cbn [strings_ok fold_right] in St. destruct St as [St _].
    destruct (strip_described i1) as (j1 & E1 & D1). rewrite E1 in H. pose proof (described_strings _ _ D1 St) as St1.
    destruct j1 as [| | | | | | t c | |]; cbn [cval_of] in H; try (cbn [is_nil] in H; discriminate).
    2: { destruct (is_nil _); [| discriminate]. destruct (to_uint _ _); discriminate. }
    destruct (to_uint 4294967295 (cval_of i2)) as [ck |] eqn:Eck; [| discriminate].
    destruct (strip_described c) as (j2 & E2 & D2). rewrite E2 in H. cbn [strings_ok] in St1. pose proof (described_strings _ _ D2 St1) as St2.
    destruct j2 as [| | raw | | | | | |]; cbn [cval_of] in H; try discriminate.
    destruct (Z.eqb_spec t 24) as [-> |]; [| discriminate]. cbn [negb] in H.
    destruct (Z.eqb_spec ck (crc32 raw)) as [-> |]; [| discriminate]. cbn [negb] in H.
    assert (Br : bytes_ok raw) by (apply all_bytes_ok; exact St2).
    destruct (read_item raw) as [v |] eqn:P2; [| discriminate].
    apply (read_item_iff raw v Br) in P2 as (j & e' & tail' & Er & Ej & Rj & ->).
    pose proof (enc_strings _ _ Ej) as Sj.
    destruct (strip_tagged j) as (k & Ek & Tk). rewrite Ek in H. pose proof (tagged_strings _ _ Tk Sj) as Sk.
    destruct (cval_of k) as [| | | | l | | | s |] eqn:Ck; try discriminate.
    2: { destruct ((_ =? _) || _); discriminate. }
    apply arr_inv in Ck as (il & -> & ->).
    destruct il as [| vh [| va [| vt [| ? ?]]]]; cbn [map] in H; try discriminate.
    destruct (to_byteslice (cval_of vh)) as [h |] eqn:Eh; [| discriminate].
    destruct (to_attrs (cval_of va)) as [[p n] |] eqn:Ea; [| discriminate].
    destruct (to_uint _ (cval_of vt)) as [tg |] eqn:Et; [| discriminate].
    destruct (Nat.eqb_spec (length h) 28) as [L |]; [| discriminate]. destruct (Z.eqb_spec tg 0) as [-> |]; [| discriminate].
    injection H as <-. cbn [by_hash by_payload by_network by_tag]. split; [| reflexivity].
    cbn [strings_ok fold_right] in Sk. destruct Sk as (_ & Sa & _). apply to_attrs_iff in Ea as (va' & Ta & Ra); [| exact Sa].
    apply reads_uint_iff in Eck as [Eck _]; [| lia]. apply reads_uint_iff in Et as [Et _]; [| lia]. apply reads_bytes_iff in Eh.
    rewrite crc32_spec in Eck by exact Br.
    exists (Arr [i1; i2]), e, tail, c, i1, raw, i2, j, e', tail', vh, va, va', vt. repeat (split; [assumption || reflexivity |]). assumption.
  - intros [(outer & e & tail & vraw & vtag & raw & vsum & inner & e' & tail' & vh & va & va' & vt &
      Ed & Ee & Ro & -> & D1 & D2 & Us & Er & Ej & Rj & Tk & Rh & L & Ta & Ra & Ut) T0].
    rewrite (proj2 (read_item_iff d (cval_of (Arr [vtag; vsum])) B)) by (exists (Arr [vtag; vsum]), e, tail; auto).
    cbn [cval_of map]. rewrite (strip_described_eq _ _ D1) by (intros k [= E]). cbn [cval_of]. rewrite (strip_described_eq _ _ D2) by (intros k E; discriminate E). cbn [cval_of].
    pose proof (enc_strings _ _ Ee) as St. cbn [strings_ok fold_right] in St. destruct St as [St _].
    pose proof (described_strings _ _ D1 St) as St1. cbn [strings_ok] in St1. pose proof (described_strings _ _ D2 St1) as St2.
    assert (Br : bytes_ok raw) by (apply all_bytes_ok; exact St2). pose proof (crc32_range raw Br) as Rg. rewrite <- crc32_spec in Us by exact Br.
    rewrite (proj2 (reads_uint_iff 4294967295 vsum ltac:(lia) (crc32 raw))) by (split; [exact Us | lia]). rewrite !Z.eqb_refl. cbn [negb].
    rewrite (proj2 (read_item_iff raw (cval_of inner) Br)) by (exists inner, e', tail'; auto).
    rewrite (strip_tagged_eq _ _ Tk) by (intros t k E; discriminate E). cbn [cval_of map].
    pose proof (tagged_strings _ _ Tk (enc_strings _ _ Ej)) as Sk. cbn [strings_ok fold_right] in Sk. destruct Sk as (_ & Sa & _).
    rewrite (proj2 (reads_bytes_iff vh (by_hash b)) Rh). rewrite (proj2 (to_attrs_iff va (by_payload b) (by_network b) Sa)) by (exists va'; auto).
    rewrite (proj2 (reads_uint_iff (2 ^ 64 - 1) vt ltac:(lia) 0)) by (split; [exact Ut | lia]). rewrite L. cbn [Nat.eqb negb orb Z.eqb]. destruct b; cbn in *; subst; reflexivity.
Qed.

(** ** What is accepted is a valid address *)
(** Every encoding of an item has at least this length. *)
Fixpoint size (i : item) : nat :=
  match i with
  | Bstr b | Tstr b => S (length b)
  | Arr l => S (fold_right (fun v m => size v + m) 0 l)%nat
  | Map l => S (fold_right (fun '(k, v) m => size k + (size v + m)) 0 l)%nat
  | Tag _ v => S (size v)
  | _ => 1%nat
  end.
Lemma chunks_size m b l : chunks m b l -> (length b <= length l)%nat.
Proof. induction 1; cbn [length]; rewrite ?app_length; cbn [length]; rewrite ?app_length; lia. Qed.
Lemma enc_size i e : enc i e -> (size i <= length e)%nat.
Proof.
  apply (enc_m (fun i e => (size i <= length e)%nat) (fun l e => (fold_right (fun v m => size v + m) 0 l <= length e)%nat)
    (fun l e => (fold_right (fun '(k, v) m => size k + (size v + m)) 0 l <= length e)%nat)); intros; cbn [size fold_right length]; rewrite ?app_length; cbn [length]; try lia;
    match goal with H : chunks _ _ _ |- _ => apply chunks_size in H; lia end.
Qed.
Lemma tagged_size j i : tagged j i -> (size j <= size i)%nat.
Proof. induction 1; cbn [size]; lia. Qed.
Lemma described_size j i : described j i -> (size j <= size i)%nat.
Proof. induction 1; cbn [size]; lia. Qed.
Lemma size_pos i : (1 <= size i)%nat.
Proof. destruct i; cbn [size]; lia. Qed.
Lemma reads_bytes_size i b : reads_bytes i b -> (length b <= size i)%nat.
Proof.
  induction 1; cbn [size length]; try lia.
  apply le_S. induction H as [| i n l b _ _ IH]; cbn [length fold_right]; [lia |]. pose proof (size_pos i). lia.
Qed.
Lemma first_size k l v : first k l (Some v) -> (size v <= size (Map l))%nat.
Proof.
  remember (Some v) as o. intros H. cbn [size]. induction H; [discriminate | |]; cbn [fold_right].
  - injection Heqo as ->. lia.
  - specialize (IHfirst Heqo). lia.
Qed.

(** Numbers in an encoding are not negative. *)
Fixpoint numbers_ok (i : item) : Prop :=
  match i with
  | Uint n => 0 <= n
  | Bstr b | Tstr b => all_bytes b
  | Arr l => fold_right (fun v P => numbers_ok v /\ P) True l
  | Map l => fold_right (fun '(k, v) P => numbers_ok k /\ numbers_ok v /\ P) True l
  | Tag _ v => numbers_ok v
  | _ => True
  end.
Lemma value256_nonneg l : all_bytes l -> 0 <= value256 l.
Proof.
  unfold value256. intros A. assert (G : forall l a, all_bytes l -> 0 <= a -> 0 <= fold_left (fun v b => v * 256 + b) l a).
  { clear. induction l as [| x l IH]; intros a A Ha; cbn [fold_left]; [exact Ha |]. apply IH; [intros y Hy; apply A; right; exact Hy |]. pose proof (A x (or_introl eq_refl)). lia. }
  apply G; [exact A | lia].
Qed.
Lemma arg_nonneg ai n a : arg ai n a -> 0 <= n.
Proof. inversion 1; subst; try lia; apply value256_nonneg; assumption. Qed.
Lemma enc_numbers i e : enc i e -> numbers_ok i.
Proof.
  apply (enc_m (fun i _ => numbers_ok i) (fun l _ => numbers_ok (Arr l)) (fun l _ => numbers_ok (Map l))); intros; cbn [numbers_ok fold_right]; auto;
    first [eapply arg_nonneg; eassumption | eapply chunks_bytes; eassumption].
Qed.
Lemma tagged_numbers j i : tagged j i -> numbers_ok i -> numbers_ok j.
Proof. induction 1; auto. Qed.
Lemma described_numbers j i : described j i -> numbers_ok i -> numbers_ok j.
Proof. induction 1; auto. Qed.
Lemma reads_uint_nonneg i n : reads_uint i n -> numbers_ok i -> 0 <= n.
Proof. induction 1; cbn [numbers_ok]; auto; intros; try lia. apply value256_nonneg; assumption. Qed.
Lemma reads_bytes_ok i b : reads_bytes i b -> numbers_ok i -> all_bytes b.
Proof.
  induction 1; cbn [numbers_ok]; auto; [intros _ x [] |].
  induction H as [| i n l b [U L] _ IH]; intros N x; [intros [] |]. cbn [fold_right] in N. destruct N as [N1 N2].
  intros [<- | Hx]; [split; [eapply reads_uint_nonneg; eauto | exact L] | apply IH; auto].
Qed.
Lemma first_numbers k l v : first k l (Some v) -> numbers_ok (Map l) -> numbers_ok v.
Proof.
  remember (Some v) as o. intros H. cbn [numbers_ok]. induction H; [discriminate | |]; cbn [fold_right]; intros (N1 & N2 & N3).
  - injection Heqo as ->. exact N2.
  - auto.
Qed.
Lemma byron_valid d b : bytes_ok d -> zlen d < 2 ^ 32 -> byron_unmarshal d = Ok b -> byron_ok b.
Proof.
  intros B L H. apply byron_accepted in H as [(outer & e & tail & vraw & vtag & raw & vsum & inner & e' & tail' & vh & va & va' & vt &
      Ed & Ee & Ro & -> & D1 & D2 & Us & Er & Ej & Rj & Tk & Rh & LH & Ta & Ra & Ut) T0]; [| exact B].
  pose proof (tagged_numbers _ _ Tk (enc_numbers _ _ Ej)) as N. cbn [numbers_ok fold_right] in N. destruct N as (Nh & Na & Nt & _).
  apply (tagged_numbers _ _ Ta) in Na.
  assert (Sz : (size va' <= length d)%nat).
  { apply enc_size in Ee. cbn [size fold_right] in Ee. apply described_size in D1, D2. cbn [size] in D1, D2. apply enc_size in Ej. apply tagged_size in Tk, Ta. cbn [size fold_right] in Tk.
    subst d raw. rewrite app_length in *. lia. }
  unfold byron_ok, hash28. split; [split; [exact LH | exact (reads_bytes_ok _ _ Rh Nh)] |].
  inversion Ra as [s Es E1 E2 E3 | l vp vn p n K F1 F2 P Nn E1 E2 E3]; subst va'.
  - split; [intros x [] |]. split; [reflexivity |]. split; [exact I | exact T0].
  - split; [destruct vp as [v |]; [apply (reads_bytes_ok _ _ P), (first_numbers _ _ _ F1 Na) | rewrite P; intros x []] |].
    split.
    { unfold zlen in *. destruct vp as [v |]; [| rewrite P; reflexivity]. apply reads_bytes_size in P. apply first_size in F1. lia. }
    split; [| exact T0]. destruct vn as [v |]; [| rewrite Nn; exact I]. pose proof (first_numbers _ _ _ F2 Na) as Nv.
    inversion Nn as [| i x _ U Lx]; subst; [exact I |]. split; [exact (reads_uint_nonneg _ _ U Nv) | exact Lx].
Qed.
