(** C18-C20, C60, C65-C67, C86 and the Byron part of C09: Byron addresses, base58, CRC-32, CBOR reading. *)
From Verif.Model Require Import Base Bech32 Hex Base58 Crc32 Cbor Network Address.
From Verif.Spec Require Import CborSpec CrcSpec ByronSpec Cip19 AddressSpec Base58Spec.
From Verif.Proofs Require Import Util CborFacts CborParse CrcFacts CrcSpecFacts Base58Facts AddressFacts ByronFacts.

(** For the concrete examples only. *)
#[local] Instance no_unicode : Unicode := {| uni_lower := fun s => s; uni_upper := fun s => s |}.
#[local] Existing Instance go117.
Definition ex_hash (k : Z) : bytes := map (fun i => (k * i + 200) mod 256) (zrange 28).
Lemma ex_hash_ok k : hash28 (ex_hash k).
Proof.
  split; [reflexivity |]. intros b H. apply in_map_iff in H as (i & <- & _). apply Z.mod_pos_bound. lia.
Qed.
Definition ex_byron : ByronAddress := {| by_hash := ex_hash 7; by_payload := ex_hash 3 ++ [9; 0]; by_network := Some 42; by_tag := 0 |}.
Lemma ex_byron_ok : byron_ok ex_byron.
Proof.
  split; [apply ex_hash_ok |]. split; [| repeat split; cbn; lia].
  intros b Hb. apply in_app_or in Hb as [Hb | Hb]; [apply (ex_hash_ok 3); auto |]. cbn in Hb. lia.
Qed.

(** C18: the CBOR layout, and both round trips. *)
Theorem C18_layout : forall b, byron_ok b ->
  addr_bytes (AByron b) = cbor (byron_outer (cbor (byron_inner (by_hash b) (byron_attrs (by_payload b) (by_network b)) 0))).
Proof. intros b K. cbn [addr_bytes]. rewrite byron_bytes_outer by auto. unfold inner_of. replace (by_tag b) with 0 by (symmetry; apply K). reflexivity. Qed.
Print Assumptions C18_layout.
Theorem C18_bytes_roundtrip : forall b spare, byron_ok b -> NewAddressFromBytes (addr_bytes (AByron b)) spare = Ok (AByron b).
Proof. intros b spare K. cbn [addr_bytes]. rewrite <- (app_nil_r (byron_bytes b)). apply byron_parse; auto. Qed.
Print Assumptions C18_bytes_roundtrip.
Theorem C18_string_roundtrip : forall (U : Unicode) (R : Runtime) b, byron_ok b -> (length (by_payload b) <= 512)%nat ->
  exists s, addr_string (AByron b) = Ok s /\ b58_text s (addr_bytes (AByron b)) /\ NewAddress s = Ok (AByron b).
Proof.
  intros U R b K L. destruct (byron_prefix b K L) as [H1 H2]. destruct (byron_text b K H1 H2) as [S N].
  eexists. split; [exact S |]. split; [| exact N]. apply encode_text, byron_bytes_ok; auto.
Qed.
Print Assumptions C18_string_roundtrip.
Example C18_example : byron_ok ex_byron /\ (do s <- addr_string (AByron ex_byron); NewAddress s) = Ok (AByron ex_byron).
Proof. split; [apply ex_byron_ok | vm_compute; reflexivity]. Qed.
(** The two addresses of address_test.go:72,81. *)
Example C18_vectors : map (fun s => do a <- NewAddress s; addr_string a)
    [str "Ae2tdPwUPEZFRbyhz3cpfC2CumGzNkFBN2L42rcUc2yjQpEkxDbkPodpMAi";
     str "DdzFFzCqrhsf6zq32tPdqzCqL4JxNSw5aDkiKQp9x8PWUHBXNhR6UNtEeBthFGuf7oSGT2uLKYjoDTyJochABBPCjs6VN4V8eVk7acbe"] =
    [Ok (str "Ae2tdPwUPEZFRbyhz3cpfC2CumGzNkFBN2L42rcUc2yjQpEkxDbkPodpMAi");
     Ok (str "DdzFFzCqrhsf6zq32tPdqzCqL4JxNSw5aDkiKQp9x8PWUHBXNhR6UNtEeBthFGuf7oSGT2uLKYjoDTyJochABBPCjs6VN4V8eVk7acbe")].
Proof. vm_compute. reflexivity. Qed.

(** C19. A wrong checksum is always rejected with the checksum error, whatever the rest. *)
Theorem C19_wrong_checksum : forall raw c r spare, all_bytes raw -> zlen raw < 2 ^ 64 -> 0 <= c < 2 ^ 32 -> c <> crc_spec raw ->
  NewAddressFromBytes (cbor (Arr [Tag 24 (Bstr raw); Uint c]) ++ r) spare = Err EByronChecksum.
Proof. exact byron_bad_sum. Qed.
Print Assumptions C19_wrong_checksum.
(** Exactly what is accepted: C19 with [byron_reads] in place of the strict layout. Bytes may follow, and the numbers, byte
    strings and attributes may be written in further forms. *)
Theorem C19_exact : forall d spare b, bytes_ok d -> (NewAddressFromBytes d spare = Ok (AByron b) <->
  (exists h r, d = h :: r /\ 128 <= h < 144) /\ byron_reads d (by_hash b) (by_payload b) (by_network b) /\ by_tag b = 0).
Proof.
  intros d spare b B. rewrite <- byron_accepted by auto. unfold NewAddressFromBytes, index. destruct d as [| h r].
  { cbn [nth_error bind]. split; [discriminate | intros ((? & ? & ? & _) & _); discriminate]. }
  assert (H : 0 <= h < 256) by (apply all_bytes_ok in B; apply B; left; reflexivity).
  cbn [nth_error bind]. set (k := Z.shiftr (Z.land h 240) 4).
  assert (K : k = 8 <-> 128 <= h < 144).
  { unfold k. rewrite (Z.shiftr_div_pow2 _ 4) by lia. change 240 with (Z.shiftl (Z.ones 4) 4).
    assert (L : Z.land h (Z.shiftl (Z.ones 4) 4) / 2 ^ 4 = h / 16).
    { rewrite <- Z.shiftr_div_pow2, Z.shiftr_land, Z.shiftr_shiftl_l by lia. change (Z.shiftl (Z.ones 4) (4 - 4)) with (Z.ones 4). rewrite Z.land_ones by lia.
      rewrite Z.shiftr_div_pow2 by lia. change (2 ^ 4) with 16. apply Z.mod_small. Z.to_euclidean_division_equations; lia. }
    rewrite L. Z.to_euclidean_division_equations; lia. }
  destruct (Z.eqb_spec k 8) as [E | E].
  - apply K in E. destruct (byron_unmarshal (h :: r)) as [b' | |]; cbn [bind]; split; try discriminate; try (intros [_ X]; discriminate X).
    + intros [= ->]. split; [exists h, r; auto | reflexivity].
    + intros [_ [= ->]]. reflexivity.
  - clearbody k. split; [| intros ((? & ? & [= <- <-] & C) & _); apply K in C; contradiction]. clear. intros H. exfalso. unfold bind in H.
    repeat match type of H with context [match ?x with _ => _ end] => destruct x; try discriminate end.
Qed.
Print Assumptions C19_exact.
Example C19_example : exists b, NewAddressFromBytes (byron_bytes ex_byron) [] = Ok (AByron b).
Proof. exists ex_byron. rewrite <- (app_nil_r (byron_bytes ex_byron)). apply byron_parse, ex_byron_ok. Qed.

(** C19 and C09 as stated are false: any bytes after a Byron address are ignored, ... *)
Theorem C19_trailing_refuted : forall b junk spare, byron_ok b -> junk <> [] ->
  NewAddressFromBytes (addr_bytes (AByron b) ++ junk) spare = Ok (AByron b) /\ addr_bytes (AByron b) <> addr_bytes (AByron b) ++ junk.
Proof.
  intros b junk spare K J. split; [apply byron_parse; auto |]. intros E. apply J.
  rewrite <- (app_nil_r (addr_bytes (AByron b))) in E at 1. apply app_inv_head in E. auto.
Qed.
Print Assumptions C19_trailing_refuted.
(** ... and the hash may be written as an array of numbers, the checksum as a bignum. *)
Definition ex_odd_raw : bytes := cbor (Arr [Arr (map Uint (ex_hash 7)); Map []; Simple 22]).
Definition ex_odd : item := Arr [Tag 24 (Bstr ex_odd_raw); Tag 2 (Bstr (be 4 (crc32 ex_odd_raw)))].
Theorem C19_forms_refuted : exists d b, bytes_ok d /\ NewAddressFromBytes d [] = Ok (AByron b) /\ addr_bytes (AByron b) <> d /\
  forall raw c r, item_ok (Arr [Tag 24 (Bstr raw); Uint c]) -> d <> cbor (Arr [Tag 24 (Bstr raw); Uint c]) ++ r.
Proof.
  exists (cbor ex_odd), {| by_hash := ex_hash 7; by_payload := []; by_network := None; by_tag := 0 |}.
  split; [apply all_bytes_ok; intros x Hx; assert (F : forallb (fun x => (0 <=? x) && (x <? 256)) (cbor ex_odd) = true) by (vm_compute; reflexivity);
          rewrite forallb_forall in F; apply F in Hx; lia |].
  split; [vm_compute; reflexivity |]. split; [vm_compute; discriminate |].
  intros raw c r I E. pose proof (parse_item_cbor _ r I) as P. rewrite <- E in P.
  assert (Q : match parse_item (cbor ex_odd) with Some (CArr [_; CUint _]) => false | _ => true end = true) by (vm_compute; reflexivity).
  rewrite P in Q. discriminate.
Qed.
Print Assumptions C19_forms_refuted.
(** An attribute may also be named by a text or by a negative number (k - 2^64, whose two's complement is k). *)
Definition ex_keys_raw (k : item) : bytes := cbor (Arr [Bstr (ex_hash 7); Map [(k, Uint 42)]; Uint 0]).
Example C19_keys : map (fun k => NewAddressFromBytes (cbor (byron_outer (ex_keys_raw k))) []) [Uint 2; Nint (2 ^ 64 - 3); Tstr [50]; Uint 3; Tstr [255]] =
  let b n := Ok (AByron {| by_hash := ex_hash 7; by_payload := []; by_network := n; by_tag := 0 |}) in
  [b (Some 42); b (Some 42); b (Some 42); b None; Err ECborDecode].
Proof. vm_compute. reflexivity. Qed.

(** C20 *)
Theorem C20_roundtrip : forall b, bytes_ok b -> b58_decode (b58_encode b) = b.
Proof. exact b58_roundtrip. Qed.
Print Assumptions C20_roundtrip.
Theorem C20_text : forall b, bytes_ok b -> b58_text (b58_encode b) b.
Proof. exact encode_text. Qed.
Print Assumptions C20_text.
Example C20_example : b58_encode [0; 0; 40; 127; 180; 205] = str "11233QC4" /\ b58_decode (str "11233QC4") = [0; 0; 40; 127; 180; 205].
Proof. split; vm_compute; reflexivity. Qed.

(** C65: base58 decoding loses nothing: every valid text is the text of exactly what it decodes to, and
    text with any other character decodes to nothing. *)
Theorem C65_decode_exact : forall s, (forall c, In c s -> b58_char c) -> bytes_ok (b58_decode s) /\ b58_encode (b58_decode s) = s.
Proof. exact b58_decode_text. Qed.
Print Assumptions C65_decode_exact.
Theorem C65_decode_injective : forall s t, (forall c, In c s -> b58_char c) -> (forall c, In c t -> b58_char c) ->
  b58_decode s = b58_decode t -> s = t.
Proof.
  intros s t Hs Ht E. rewrite <- (proj2 (b58_decode_text s Hs)), <- (proj2 (b58_decode_text t Ht)). congruence.
Qed.
Print Assumptions C65_decode_injective.
Theorem C65_decode_bad : forall s c, In c s -> ~ b58_char c -> b58_decode s = [].
Proof. exact b58_decode_bad. Qed.
Print Assumptions C65_decode_bad.
Example C65_example : b58_decode (str "1Za") = [0; 7; 97] /\ b58_decode (str "1Zl") = [].
Proof. split; vm_compute; reflexivity. Qed.

(** C66: the checksum is the CRC-32 of the polynomial definition, and a change confined to four consecutive
    bytes of the payload is always detected. *)
Theorem C66_crc : forall b, bytes_ok b -> crc32 b = crc_spec b.
Proof. exact crc32_spec. Qed.
Print Assumptions C66_crc.
Theorem C66_burst : forall p u v s r spare, all_bytes (p ++ u ++ s) -> all_bytes v -> zlen (p ++ u ++ s) < 2 ^ 64 ->
  length u = length v -> (length u <= 4)%nat -> u <> v ->
  NewAddressFromBytes (cbor (Arr [Tag 24 (Bstr (p ++ v ++ s)); Uint (crc_spec (p ++ u ++ s))]) ++ r) spare = Err EByronChecksum.
Proof.
  intros p u v s r spare B Bv L Lu L4 N. apply all_bytes_ok in B, Bv. assert (B0 := B). apply bytes_ok_app in B0 as [Bp B1]. apply bytes_ok_app in B1 as [Bu Bs].
  assert (B' : bytes_ok (p ++ v ++ s)) by (rewrite !bytes_ok_app; auto).
  apply byron_bad_sum.
  - apply all_bytes_ok; auto.
  - unfold zlen in *. rewrite !app_length in *. rewrite <- Lu. auto.
  - apply crc_spec_range; auto.
  - intros E. apply N. apply (crc_burst p u v s); auto. rewrite !crc32_spec; auto.
Qed.
Print Assumptions C66_burst.
Example C66_example : crc_spec (str "123456789") = 0xCBF43926.
Proof. vm_compute. reflexivity. Qed.

(** C67: the CBOR reader accepts exactly the well-formed encodings of RFC 8949 (followed by anything), and
    reads the one item they encode. *)
Theorem C67_reader : forall d v, bytes_ok d ->
  (parse_item d = Some v <-> exists i e r, d = e ++ r /\ enc i e /\ v = cval_of i).
Proof. exact parse_item_iff. Qed.
Print Assumptions C67_reader.
Theorem C67_unique : forall i j e f r s, bytes_ok (e ++ r) -> enc i e -> enc j f -> e ++ r = f ++ s -> i = j /\ e = f.
Proof. exact enc_unique. Qed.
Print Assumptions C67_unique.
Theorem C67_canonical : forall i r, item_ok i -> parse_item (cbor i ++ r) = Some (cval_of i).
Proof. exact parse_item_cbor. Qed.
Print Assumptions C67_canonical.
(** With the limits of the library: at most 32 levels and 131072 elements (or pairs) in an array (or map). *)
Theorem C67_limits : forall d v, bytes_ok d ->
  (read_item d = Some v <-> exists i e r, d = e ++ r /\ enc i e /\ readable i /\ v = cval_of i).
Proof. exact read_item_iff. Qed.
Print Assumptions C67_limits.
Example C67_example : parse_item [0x9f; 0x18; 7; 0xc1; 0x5f; 0x41; 9; 0x40; 0xff; 0xff; 1] = Some (cval_of (Arr [Uint 7; Tag 1 (Bstr [9])])).
Proof. vm_compute. reflexivity. Qed.

(** C60 is false for every address of another network than mainnet, written as Cardano does. *)
Theorem C60_refuted : forall hash payload magic r spare, hash28 hash -> all_bytes payload -> zlen payload < 2 ^ 32 -> 0 <= magic < 2 ^ 32 ->
  NewAddressFromBytes (cbor (byron_outer (cbor (byron_inner hash (byron_attrs_cardano payload magic) 0))) ++ r) spare = Err ECborDecode.
Proof.
  intros hash payload magic r spare [LH H] P PL M.
  set (inner := byron_inner hash (byron_attrs_cardano payload magic) 0).
  assert (OM : item_ok (Uint magic)) by (cbn; lia).
  assert (LM : zlen (cbor (Uint magic)) <= 9) by (unfold zlen; pose proof (head_length 0 magic); cbn [cbor]; lia).
  assert (BM : all_bytes (cbor (Uint magic))) by (apply all_bytes_ok, cbor_bytes_ok; auto).
  assert (I : item_ok inner).
  { unfold inner, byron_inner, byron_attrs_cardano, zlen in *. remember (cbor (Uint magic)) as m. destruct payload; cbn [app item_ok fold_right length] in *; rewrite LH;
      repeat split; try lia; auto; try (apply H; assumption); try (apply P; assumption); apply BM; assumption. }
  assert (BI : bytes_ok (cbor inner)) by (apply cbor_bytes_ok; auto).
  assert (L : zlen (cbor inner) < 2 ^ 64).
  { unfold inner, byron_inner, byron_attrs_cardano. remember (cbor (Uint magic)) as m. unfold zlen in *.
    destruct payload as [| x p]; cbn [cbor flat_map app]; rewrite ?app_length; cbn [length]; rewrite ?LH;
    repeat match goal with |- context [length (head ?t ?n)] => pose proof (head_length t n); generalize dependent (length (head t n)); intros end;
    rewrite ?app_length; cbn [length] in *; lia. }
  assert (RI : readable inner) by (unfold readable, inner, byron_inner, byron_attrs_cardano; destruct payload; cbn [nesting widest fold_right length app]; lia).
  pose proof (read_item_cbor _ r (outer_ok _ BI L) (outer_readable _)) as PO. pose proof (read_item_cbor _ [] I RI) as PI. rewrite app_nil_r in PI.
  pose proof (crc_spec_range _ BI) as C. change (2 ^ 32) with 4294967296 in C.
  unfold NewAddressFromBytes, index.
  assert (E : exists t, cbor (byron_outer (cbor inner)) ++ r = 130 :: t) by (unfold byron_outer; cbn [cbor flat_map length]; eexists; reflexivity).
  destruct E as (t & E). rewrite E in *. cbn [nth_error bind].
  change (Z.shiftr (Z.land 130 240) 4 =? 8) with true. cbn beta iota. unfold byron_unmarshal. rewrite PO.
  unfold byron_outer. cbn [cval_of map is_nil to_uint strip_self Z.eqb Pos.eqb]. replace (crc_spec (cbor inner) <=? 4294967295) with true by lia.
  cbn [negb Z.eqb Pos.eqb]. rewrite crc32_spec, Z.eqb_refl by auto. cbn [negb]. rewrite PI.
  unfold inner, byron_inner, byron_attrs_cardano. remember (cbor (Uint magic)) as m.
  destruct payload; reflexivity.
Qed.
Print Assumptions C60_refuted.
(** On mainnet (no network attribute) C60 holds. *)
Theorem C60_mainnet_partial : forall hash payload r spare, hash28 hash -> all_bytes payload -> zlen payload < 2 ^ 32 ->
  NewAddressFromBytes (cbor (byron_outer (cbor (byron_inner hash (byron_attrs payload None) 0))) ++ r) spare =
  Ok (AByron {| by_hash := hash; by_payload := payload; by_network := None; by_tag := 0 |}).
Proof.
  intros hash payload r spare H P L. set (b := {| by_hash := hash; by_payload := payload; by_network := None; by_tag := 0 |}).
  assert (K : byron_ok b) by (split; [exact H |]; split; [exact P |]; split; [exact L |]; split; [exact I | reflexivity]). rewrite <- (byron_parse b r spare K). rewrite byron_bytes_outer by auto. reflexivity.
Qed.
Print Assumptions C60_mainnet_partial.
Example C60_example : hash28 (ex_hash 7) /\ 0 <= 1097911063 < 2 ^ 32 /\
  NewAddress (str "37btjrVyb4KDXBNC4haBVPCrro8AQPHwvCMp3RFhhSVWwfFmZ6wwzSK6JK1hY6wHNmtrpTf1kdbva8TCneM2YsiXT7mrzT21EacHnPpz5YyUdj64na") = Err ECborDecode.
Proof. split; [apply ex_hash_ok | split; [lia | vm_compute; reflexivity]]. Qed.

(** ** C86 *)
(** Full statement: [addr_network a = net_of a] with, for a Byron address, the magic its attribute holds. This is everything but
    the magic. *)
Theorem C86_network_partial : MainNet = main_network /\ TestNet = test_network /\ (forall a, addr_network a = net_of a) /\
  (forall b, addr_network (AByron b) = main_network <-> by_network b = None) /\
  forall b, NetworkId (addr_network (AByron b)) = 0 <-> by_network b <> None.
Proof.
  repeat split; try reflexivity; try (intros [b | e | r | p | b]; reflexivity); cbn [addr_network]; destruct (by_network b); cbn [NetworkId TestNet MainNet]; congruence || reflexivity || discriminate.
Qed.
Print Assumptions C86_network_partial.
Theorem C86_constructors : forall net pay stake ptr,
  addr_network (ABase (NewBaseAddress net pay stake)) = net /\ addr_network (AEnterprise (NewEnterpriseAddress net pay)) = net /\
  addr_network (AReward (NewRewardAddress net stake)) = net /\ addr_network (APointer (NewPointerAddress net pay ptr)) = net.
Proof. repeat split. Qed.
Print Assumptions C86_constructors.
(** Every Byron address with a network attribute is reported to be on the network with magic 1097911063, which no attribute that
    the package can hold (a byte) denotes. *)
Theorem C86_magic_refuted : forall b n, byron_ok b -> by_network b = Some n -> ProtocolMagic (addr_network (AByron b)) <> n.
Proof.
  intros b n (_ & _ & _ & N & _) E. cbn [addr_network]. rewrite E in *. cbn [ProtocolMagic TestNet]. lia.
Qed.
Print Assumptions C86_magic_refuted.
Example C86_example : byron_ok ex_byron /\ by_network ex_byron = Some 42 /\ addr_network (AByron ex_byron) = test_network.
Proof. split; [apply ex_byron_ok | split; reflexivity]. Qed.
