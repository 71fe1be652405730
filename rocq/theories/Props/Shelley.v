(** C04-C17, C64: Shelley addresses. *)
From Verif.Model Require Import Base Bech32 Hex Base58 Cbor Network Address.
From Verif.Spec Require Import Bech32Spec VarNatSpec Cip19 HexSpec AddressSpec CborSpec ByronSpec BchSpec.
From Verif.Proofs Require Import Util VarNat Bech32Facts Bech32Props AddressFacts AddressParse HexFacts CborFacts AddressProps ByronFacts BchFacts.

(** For the concrete examples only. *)
#[local] Instance no_unicode : Unicode := {| uni_lower := fun s => s; uni_upper := fun s => s |}.
Definition ex_hash (k : Z) : bytes := map (fun i => (k * i + 200) mod 256) (zrange 28).
Definition ex_pay := NewScriptStakeCredential (ex_hash 7).
Definition ex_stake := NewKeyStakeCredential (ex_hash 11).
Definition ex_base := ABase {| ba_net := TestNet; ba_pay := ex_pay; ba_stake := ex_stake |}.
Definition ex_pointer := {| pa_net := MainNet; pa_pay := ex_pay; pa_ptr := {| Slot := 2498243; TxIndex := 27; CertIndex := 2 ^ 64 - 1 |} |}.
Lemma ex_hash_ok k : hash28 (ex_hash k).
Proof.
  split; [reflexivity |]. intros b H. apply in_map_iff in H as (i & <- & _). apply Z.mod_pos_bound. lia.
Qed.
Lemma ex_base_ok : shelley_ok ex_base.
Proof. split; [split; (split; [cbn; auto | apply ex_hash_ok]) | right; reflexivity]. Qed.
Lemma ex_pointer_ok : shelley_ok (APointer ex_pointer).
Proof. split; [split; [split; [cbn; auto | apply ex_hash_ok] | repeat split; cbn; lia] | left; reflexivity]. Qed.

(** C04 *)
Theorem C04_layout : forall a, shelley_parts_ok a -> 0 <= NetworkId (net_of a) < 16 -> cip19 a (addr_bytes a).
Proof. exact C04_lemma. Qed.
Print Assumptions C04_layout.
(** C04 through the constructors: where each argument goes. *)
Theorem C04_constructors : forall net h g slot tx cert,
  0 <= NetworkId net < 16 -> hash28 h -> hash28 g -> 0 <= slot < 2 ^ 64 -> 0 <= tx < 2 ^ 64 -> 0 <= cert < 2 ^ 64 ->
  let id := NetworkId net in let key := NewKeyStakeCredential in let script := NewScriptStakeCredential in
  addr_bytes (ABase (NewBaseAddress net (key h) (key g))) = base_layout id false false h g /\
  addr_bytes (ABase (NewBaseAddress net (script h) (key g))) = base_layout id true false h g /\
  addr_bytes (ABase (NewBaseAddress net (key h) (script g))) = base_layout id false true h g /\
  addr_bytes (ABase (NewBaseAddress net (script h) (script g))) = base_layout id true true h g /\
  addr_bytes (AEnterprise (NewEnterpriseAddress net (key h))) = enterprise_layout id false h /\
  addr_bytes (AEnterprise (NewEnterpriseAddress net (script h))) = enterprise_layout id true h /\
  addr_bytes (AReward (NewRewardAddress net (key h))) = reward_layout id false h /\
  addr_bytes (AReward (NewRewardAddress net (script h))) = reward_layout id true h /\
  pointer_layout id false h slot tx cert (addr_bytes (APointer (NewPointerAddress net (key h) (NewPointer slot tx cert)))) /\
  pointer_layout id true h slot tx cert (addr_bytes (APointer (NewPointerAddress net (script h) (NewPointer slot tx cert)))).
Proof.
  intros net h g slot tx cert N Hh Hg S1 S2 S3 id key script.
  assert (K : forall x, hash28 x -> cred_ok (key x) /\ cred_ok (script x)).
  { intros x X. split; split; [left | | right |]; auto. }
  destruct (K h Hh) as [K1 K2], (K g Hg) as [K3 K4].
  assert (P : ptr_ok (NewPointer slot tx cert)) by (repeat split; cbn; lia).
  assert (L : forall a, shelley_parts_ok a -> NetworkId (net_of a) = id -> cip19 a (addr_bytes a)).
  { intros a A E. apply C04_layout; [exact A |]. rewrite E. exact N. }
  repeat split;
    match goal with
    | |- context [addr_bytes ?a] => refine (L a _ eq_refl)
    end; try (split; assumption); assumption.
Qed.
Print Assumptions C04_constructors.
Example C04_example : shelley_parts_ok ex_base /\ addr_bytes ex_base = 16 :: ex_hash 7 ++ ex_hash 11.
Proof. split; [apply ex_base_ok | vm_compute; reflexivity]. Qed.

(** C05 *)
Theorem C05_bytes_roundtrip : forall a spare, shelley_ok a -> NewAddressFromBytes (addr_bytes a) spare = Ok a.
Proof. exact roundtrip_bytes. Qed.
Print Assumptions C05_bytes_roundtrip.
Example C05_example : shelley_ok (APointer ex_pointer) /\
  NewAddressFromBytes (addr_bytes (APointer ex_pointer)) [] = Ok (APointer ex_pointer).
Proof. split; [apply ex_pointer_ok | vm_compute; reflexivity]. Qed.

(** C06 *)
Theorem C06_string_roundtrip : forall (U : Unicode) (R : Runtime) a, shelley_ok a -> ~ is_pointer a ->
  exists s body, addr_string a = Ok s /\ s = own_prefix a ++ 49 :: body /\ NewAddress s = Ok a /\
    encode (own_prefix a) (addr_bytes a) = Ok s.
Proof. exact @addr_string_text. Qed.
Print Assumptions C06_string_roundtrip.
(** C06, in terms of BIP-173: the text carries the checksum and the characters of BIP-173, in lower case. *)
Theorem C06_bip173 : forall (U : Unicode) (R : Runtime) a, shelley_ok a -> ~ is_pointer a ->
  exists s, addr_string a = Ok s /\ bech32_text s (own_prefix a) (addr_bytes a) /\ map fold_case s = s.
Proof.
  intros U R a Ha Np. destruct (addr_string_text a Ha Np) as (s & body & Es & _ & _ & En). exists s. split; [exact Es |].
  pose proof (encode_accepts _ _ _ En) as Vh.
  assert (B : byte_string (addr_bytes a)) by (apply byte_string_spec; apply addr_bytes_ok; [apply Ha | apply known_net_id, Ha]).
  destruct (bech32_text_encode _ _ Vh B) as (s2 & E2 & T & F). rewrite En in E2. injection E2 as <-. split; [exact T |].
  apply F. destruct a as [b | e | p | w | y]; unfold own_prefix; try reflexivity;
  match goal with |- context [if ?c then _ else _] => destruct c end; reflexivity.
Qed.
Print Assumptions C06_bip173.
Example C06_example : shelley_ok ex_base /\ ~ is_pointer ex_base /\ addr_string ex_base =
  Ok (str "addr_test1zryvl4kaun4l97gqqu8p28pr9gcns06xf429kcnfwpmhapwg600wna8lpg2jq2ekg9x9wcnd0zpcaxdy47avt5xmumcsmvqdla").
Proof. split; [apply ex_base_ok | split; [intros [] | vm_compute; reflexivity]]. Qed.

(** C07 is false of every pointer address: String() is the empty string, and NewAddress("") panics. *)
Theorem C07_refuted : forall (U : Unicode) (R : Runtime) p, cred_ok (pa_pay p) -> 0 <= NetworkId (pa_net p) < 16 ->
  addr_string (APointer p) = Ok [] /\ NewAddress [] = Panic.
Proof. exact @C07_lemma. Qed.
Print Assumptions C07_refuted.
(** What does hold: NewAddress reads the text a pointer address should have. Missing: String() does not produce it. *)
Theorem C07_partial : forall (U : Unicode) (R : Runtime) p, shelley_ok (APointer p) ->
  exists s, bech32_text s (own_prefix (APointer p)) (addr_bytes (APointer p)) /\ map fold_case s = s /\ NewAddress s = Ok (APointer p).
Proof.
  intros U R p H. destruct (own_prefix_valid (APointer p) (fun f => f)) as (V & F & r & P).
  destruct (C15_lemma (APointer p) _ r H V F P) as (s & E & N).
  assert (B : byte_string (addr_bytes (APointer p))) by (apply byte_string_spec; apply addr_bytes_ok; [apply H | apply known_net_id, H]).
  destruct (bech32_text_encode _ _ V B) as (s2 & E2 & T & F2). rewrite E in E2. injection E2 as <-. exists s. auto.
Qed.
Print Assumptions C07_partial.
Example C07_example : shelley_ok (APointer ex_pointer).
Proof. exact ex_pointer_ok. Qed.

(** C08. [spare] is what lies behind the slice in its backing array, up to its capacity. *)
Theorem C08_panic : forall data spare, bytes_ok data ->
  (NewAddressFromBytes data spare = Panic <->
   data = [] \/ (nth 0 data 0 / 16 < 4 /\ (length data + length spare < 57)%nat)).
Proof. exact parse_panic. Qed.
Print Assumptions C08_panic.
Theorem C08_panic_hex : forall (R : Runtime) s, NewAddressFromHex s = Panic <->
  exists b, bytes_ok b /\ map hex_fold s = hex_of b /\
    (b = [] \/ (nth 0 b 0 / 16 < 4 /\ (length b + length (hex_spare s) < 57)%nat)).
Proof.
  intros R s. split.
  - intros P. unfold NewAddressFromHex in P. destruct (hex_decode s) as [b | e |] eqn:D; [| discriminate |].
    + apply hex_decode_iff in D as [B E]. cbn [bind] in P. exists b. split; auto. split; auto. apply parse_panic; auto.
    + exfalso. eapply hex_decode_err; eauto.
  - intros (b & B & E & H). rewrite (proj1 (C13_lemma s) b B E). apply parse_panic; auto.
Qed.
Print Assumptions C08_panic_hex.
Example C08_example : NewAddressFromBytes (repeat 0 56) [] = Panic /\ NewAddressFromBytes (repeat 0 56) [0] <> Panic /\
  NewAddressFromBytes (repeat 0x61 28) [] = Err ENotEnough.
Proof. split; [reflexivity |]. split; [discriminate | reflexivity]. Qed.

(** C09 holds for enterprise and reward addresses on the two named networks, for pointer addresses in
    canonical form, and for base addresses of exactly 57 bytes. Of a base address the first 57 bytes are kept. *)
Theorem C09_exact_partial : forall data spare a, bytes_ok data -> bytes_ok spare ->
  NewAddressFromBytes data spare = Ok a -> nth 0 data 0 mod 16 <= 1 ->
  match a with
  | ABase _ => addr_bytes a = firstn 57 (data ++ spare)
  | AEnterprise _ | AReward _ => addr_bytes a = data
  | APointer _ => addr_bytes a = data <-> canonical_pointer data
  | AByron _ => True
  end.
Proof. exact parse_exact. Qed.
Print Assumptions C09_exact_partial.
(** Together: exactly which accepted inputs are kept. *)
Theorem C09_exact : forall data spare a, bytes_ok data -> bytes_ok spare -> zlen data < 2 ^ 32 -> NewAddressFromBytes data spare = Ok a ->
  (addr_bytes a = data <->
   match a with
   | ABase _ => nth 0 data 0 mod 16 <= 1 /\ length data = 57%nat
   | AEnterprise _ | AReward _ => nth 0 data 0 mod 16 <= 1
   | APointer _ => nth 0 data 0 mod 16 <= 1 /\ canonical_pointer data
   | AByron b => data = cbor (byron_outer (cbor (byron_inner (by_hash b) (byron_attrs (by_payload b) (by_network b)) 0)))
   end).
Proof.
  intros data spare a B Bs L P. destruct a as [x | x | x | x | b]; try (rewrite (parse_iff data spare _ B Bs P) by (intros []); tauto).
  pose proof (parse_accepted data spare _ B P) as A. inversion A as [| | | | b' n Hn E0 E]; subst b'.
  pose proof (byron_valid data b B L E) as K. cbn [addr_bytes]. rewrite byron_bytes_outer by exact K. unfold inner_of. replace (by_tag b) with 0 by (symmetry; apply K).
  split; intros <-; reflexivity.
Qed.
Print Assumptions C09_exact.
(** What is accepted is a well-formed address. *)
Theorem C09_valid : forall data spare a, bytes_ok data -> bytes_ok spare -> zlen data < 2 ^ 32 -> NewAddressFromBytes data spare = Ok a ->
  match a with AByron b => byron_ok b | _ => shelley_parts_ok a end.
Proof.
  intros data spare a B Bs L P. destruct a as [x | x | x | x | b]; try (exact (parse_parts data spare _ B Bs P ltac:(intros []))).
  pose proof (parse_accepted data spare _ B P) as A. inversion A as [| | | | b' n Hn E0 E]; subst b'. exact (byron_valid data b B L E).
Qed.
Print Assumptions C09_valid.
Example C09_example : exists a, NewAddressFromBytes (0x71 :: ex_hash 3) [] = Ok a /\ addr_bytes a = 0x71 :: ex_hash 3.
Proof. eexists. split; [vm_compute; reflexivity | reflexivity]. Qed.

(** C09 is false: bytes behind a base address, the network nibble, and overlong naturals are dropped. *)
Theorem C09_base_trailing_refuted : forall a junk, shelley_ok a -> is_base a -> junk <> [] ->
  NewAddressFromBytes (addr_bytes a ++ junk) [] = Ok a /\ addr_bytes a <> addr_bytes a ++ junk.
Proof.
  intros a junk H I N. split.
  - pose proof (roundtrip_bytes a junk H) as P. destruct a as [b | | | |]; try contradiction.
    destruct (C04_lemma _ (proj1 H) ltac:(apply known_net_id, H)). 
    destruct H as [[P1 P2] K]. destruct (known_net_id _ K) as [Kn Ke]. cbn [net_of addr_bytes] in *.
    rewrite base_layout_lemma in * by auto. unfold base_layout in *. rewrite <- P. 
    set (t := script_bit _ + 2 * script_bit _). assert (0 <= t < 4) by (unfold t, script_bit; destruct (is_script (ba_pay b)), (is_script (ba_stake b)); lia).
    rewrite (parse_base t (NetworkId (ba_net b)) (Payload (ba_pay b)) (Payload (ba_stake b)) junk); auto; try (apply P1); try (apply P2); try discriminate.
    + rewrite (parse_base t (NetworkId (ba_net b)) (Payload (ba_pay b)) (Payload (ba_stake b)) junk); auto; try (apply P1); try (apply P2); try discriminate.
      cbn [app]. rewrite <- app_assoc. reflexivity.
    + cbn [app]. rewrite app_nil_r, <- app_assoc. reflexivity.
  - intros E. rewrite <- (app_nil_r (addr_bytes a)) in E at 1. apply app_inv_head in E. auto.
Qed.
Print Assumptions C09_base_trailing_refuted.
Theorem C09_nibble_refuted : exists data a, bytes_ok data /\ NewAddressFromBytes data [] = Ok a /\ addr_bytes a <> data.
Proof.
  exists (0x65 :: ex_hash 3). eexists. split; [| split; [vm_compute; reflexivity | vm_compute; discriminate]].
  repeat constructor; cbn; lia.
Qed.
Print Assumptions C09_nibble_refuted.
Theorem C09_overlong_refuted : exists data a, bytes_ok data /\ nth 0 data 0 mod 16 = 1 /\
  NewAddressFromBytes data [] = Ok a /\ addr_bytes a <> data.
Proof.
  exists (0x41 :: ex_hash 3 ++ [0x80; 0x05; 0x00; 0x00]). eexists.
  split; [| split; [reflexivity | split; [vm_compute; reflexivity | vm_compute; discriminate]]].
  repeat constructor; cbn; lia.
Qed.
Print Assumptions C09_overlong_refuted.

(** C10 *)
Theorem C10_bytes_injective : forall a b, shelley_ok a -> shelley_ok b -> addr_bytes a = addr_bytes b -> a = b.
Proof. exact C10_bytes_lemma. Qed.
Print Assumptions C10_bytes_injective.
Theorem C10_text_injective : forall (U : Unicode) a b, shelley_ok a -> shelley_ok b -> ~ is_pointer a -> ~ is_pointer b ->
  addr_string a = addr_string b -> a = b.
Proof. exact @C10_text_lemma. Qed.
Print Assumptions C10_text_injective.
Example C10_example : shelley_ok ex_base /\ shelley_ok (APointer ex_pointer).
Proof. split; [apply ex_base_ok | apply ex_pointer_ok]. Qed.

(** C11 *)
Theorem C11_varnat_roundtrip : forall n r, uint64 n -> bytes_ok r ->
  VariableNatDecode (VariableNatEncode n ++ r) = Ok (n, Z.of_nat (length (VariableNatEncode n))).
Proof. exact varnat_roundtrip. Qed.
Print Assumptions C11_varnat_roundtrip.
Theorem C11_varnat_minimal : forall n, uint64 n ->
  item128 (VariableNatEncode n) /\ value128 (VariableNatEncode n) = n /\
  (1 <= length (VariableNatEncode n) <= 10)%nat /\
  forall l, item128 l -> value128 l = n -> (length (VariableNatEncode n) <= length l)%nat.
Proof.
  intros n H. destruct (encode_item n H) as (I & V & _ & L). split; auto. split; auto. split; auto.
  intros l Il Vl. apply minimal_shortest; auto.
Qed.
Print Assumptions C11_varnat_minimal.
Example C11_example : uint64 (2 ^ 64 - 1) /\ VariableNatEncode (2 ^ 64 - 1) = 0x81 :: repeat 0xff 8 ++ [0x7f] /\
  VariableNatDecode [0x81; 0x00; 0xff] = Ok (128, 2).
Proof. split; [unfold uint64; lia | split; vm_compute; reflexivity]. Qed.

(** C12: everything but the last clause, which holds exactly for minimal items below 2^64; the value is
    the base-128 value modulo 2^64. *)
Theorem C12_decode_partial : forall raw, bytes_ok raw ->
  ((exists e, VariableNatDecode raw = Err e) <-> forall b, In b raw -> 128 <= b) /\
  VariableNatDecode raw <> Panic /\
  forall v n, VariableNatDecode raw = Ok (v, n) ->
    exists l r, raw = l ++ r /\ item128 l /\ n = Z.of_nat (length l) /\ v = value128 l mod 2 ^ 64 /\
      (VariableNatEncode v = l <-> minimal128 l /\ value128 l < 2 ^ 64).
Proof. exact C12_lemma. Qed.
Print Assumptions C12_decode_partial.
Theorem C12_overlong_refuted : exists raw v, bytes_ok raw /\ VariableNatDecode raw = Ok (v, 2) /\ VariableNatEncode v <> raw.
Proof. exists [0x80; 0x05], 5. split; [repeat constructor; cbn; lia | split; [reflexivity | discriminate]]. Qed.
Print Assumptions C12_overlong_refuted.
Theorem C12_overflow_refuted : exists raw v n, bytes_ok raw /\ item128 raw /\ minimal128 raw /\
  VariableNatDecode raw = Ok (v, n) /\ v <> value128 raw.
Proof.
  exists (0x84 :: repeat 0x80 8 ++ [0x05]), 5, 10. split; [repeat constructor; cbn; lia |]. split; [| split; [right; discriminate | split; [vm_compute; reflexivity | vm_compute; discriminate]]].
  exists (0x84 :: repeat 0x80 8), 5. split; [reflexivity |]. split; [intros b H; cbn in H; lia | lia].
Qed.
Print Assumptions C12_overflow_refuted.
Example C12_example : bytes_ok [0x83; 0x80; 0x01; 7] /\ VariableNatDecode [0x83; 0x80; 0x01; 7] = Ok (3 * 2 ^ 14 + 1, 3) /\
  VariableNatDecode [0x83; 0x80] = Err EVarNat.
Proof. split; [repeat constructor; cbn; lia | split; vm_compute; reflexivity]. Qed.

(** C13. The text is decoded exactly, and the result is that of the byte entry point on a slice followed
    by [hex_spare s] in memory, which makes a difference only for base headers with fewer than 57 bytes. *)
Theorem C13_hex_partial : forall (R : Runtime) s,
  (forall b, bytes_ok b -> map hex_fold s = hex_of b ->
     NewAddressFromHex s = NewAddressFromBytes b (hex_spare s) /\
     ((nth 0 b 0 / 16 < 4 -> (57 <= length b)%nat) -> forall spare, NewAddressFromHex s = NewAddressFromBytes b spare)) /\
  ((forall b, bytes_ok b -> map hex_fold s <> hex_of b) -> exists e, NewAddressFromHex s = Err e).
Proof.
  intros R s. destruct (C13_lemma s) as [H1 H2]. split; [| exact H2].
  intros b B E. split; [apply H1; auto |]. intros K spare. rewrite (H1 b B E). apply spare_irrelevant; auto.
Qed.
Print Assumptions C13_hex_partial.
Theorem C13_refuted : exists b s, bytes_ok b /\ map hex_fold s = hex_of b /\
  NewAddressFromBytes b [] = Panic /\ exists a, @NewAddressFromHex go117 s = Ok a.
Proof.
  exists (0x11 :: ex_hash 3), (hex_of (0x11 :: ex_hash 3)). split; [repeat constructor; cbn; lia |].
  split; [vm_compute; reflexivity |]. split; [vm_compute; reflexivity |]. eexists. vm_compute. reflexivity.
Qed.
Print Assumptions C13_refuted.
Example C13_example : @NewAddressFromHex go117 (str "6g") = Err EHexByte /\
  @NewAddressFromHex go117 (str "61A") = Err EHexLength /\ @NewAddressFromHex go117 (str "fF") = Err ENotEnough.
Proof. repeat split. Qed.

(** C14, first two sentences. *)
Theorem C14_network_partial : forall data spare a, bytes_ok data -> NewAddressFromBytes data spare = Ok a -> ~ is_byron a ->
  (nth 0 data 0 mod 16 = 1 -> addr_network a = main_network) /\ (nth 0 data 0 mod 16 = 0 -> addr_network a = test_network).
Proof.
  intros data spare a B P NB. pose proof (parse_network _ _ _ B P NB) as E.
  split; intros K; rewrite K in E; exact E.
Qed.
Print Assumptions C14_network_partial.
Theorem C14_text_partial : forall (U : Unicode) data spare a, bytes_ok data -> bytes_ok spare ->
  NewAddressFromBytes data spare = Ok a -> nth 0 data 0 mod 16 <= 1 -> ~ is_byron a -> ~ is_pointer a ->
  exists body, addr_string a = Ok (own_prefix a ++ 49 :: body).
Proof. exact @C14_text_lemma. Qed.
Print Assumptions C14_text_partial.
(** C14, third sentence: false for every other nibble; the address then names and prints the test network. *)
Theorem C14_unknown_network_refuted : forall n pay, 2 <= n < 16 -> hash28 pay ->
  exists a, NewAddressFromBytes (header 6 n :: pay) [] = Ok a /\ addr_network a = {| NetworkId := 0; ProtocolMagic := 0 |} /\ addr_bytes a = header 6 0 :: pay.
Proof.
  intros n pay Hn Hp. rewrite parse_enterprise by (auto; try lia; apply Hp). eexists. split; [reflexivity |].
  unfold networks. replace (n =? 1) with false by lia. replace (n =? 0) with false by lia. split; [reflexivity |].
  cbn [addr_bytes]. rewrite enterprise_layout_lemma; [reflexivity | | cbn; lia]. split; [left; reflexivity | exact Hp].
Qed.
Print Assumptions C14_unknown_network_refuted.
Example C14_example : exists a, NewAddressFromBytes (0xe0 :: ex_hash 9) [] = Ok a /\ is_reward a /\ own_prefix a = str "stake_test".
Proof. eexists. split; [vm_compute; reflexivity | split; [exact I | reflexivity]]. Qed.

(** C15 is false: any human-readable part that starts with addr or stake is accepted for any address. *)
Theorem C15_refuted : forall (U : Unicode) (R : Runtime) a hrp r, shelley_ok a -> valid_hrp hrp -> map fold_case hrp = hrp ->
  (hrp = str "addr" ++ r \/ hrp = str "stake" ++ r) ->
  exists s, encode hrp (addr_bytes a) = Ok s /\ NewAddress s = Ok a.
Proof. exact @C15_lemma. Qed.
Print Assumptions C15_refuted.
(** What does hold: an accepted text is a BIP-173 text of the bytes that were read, and it is the address's own text
    exactly when its human-readable part is the right one. Missing: nothing rejects the other ones. *)
Theorem C15_partial : forall (U : Unicode) (R : Runtime) s r a, ascii_string s -> (s = str "addr" ++ r \/ s = str "stake" ++ r) ->
  NewAddress s = Ok a -> exists hrp data, bech32_text s hrp data /\ NewAddressFromBytes data (append_spare (length data)) = Ok a /\
    (shelley_ok a -> ~ is_pointer a -> data = addr_bytes a -> (hrp = own_prefix a <-> addr_string a = Ok s)).
Proof.
  intros U R s r a As P N. unfold NewAddress in N.
  assert (Hp : has_prefix s (str "addr") || has_prefix s (str "stake") = true)
    by (destruct P as [-> | ->]; rewrite has_prefix_app; [reflexivity | apply orb_true_r]).
  rewrite Hp in N. apply bind_ok in N as ([hrp data] & D & N). exists hrp, data.
  split; [apply bech32_text_decode; assumption |]. split; [exact N |]. intros K Np ->.
  destruct (C02_lemma s hrp (addr_bytes a) (or_introl As) D) as (B & Sc & s' & E & _ & Same).
  destruct (addr_string_text a K Np) as (t & body & Et & _ & _ & En). split.
  - intros ->. rewrite Et. f_equal. rewrite En in E. injection E as ->. apply Same.
    destruct Sc as [Sc | Sc].
    + transitivity (map (fun c => c) s); [| apply map_id]. apply map_ext_in. intros c Hc. unfold fold_case.
      destruct (Z.leb_spec 65 c), (Z.leb_spec c 90); auto. exfalso. apply (Sc c Hc). unfold is_upper. lia.
    + exfalso. destruct P as [-> | ->]; [apply (Sc 97) | apply (Sc 115)]; try (left; reflexivity); unfold is_lower; lia.
  - intros Es. rewrite Et in Es. injection Es as ->. destruct (C01_lemma (own_prefix a) (addr_bytes a) B) as [_ Rt].
    rewrite (Rt s En) in D. congruence.
Qed.
Print Assumptions C15_partial.
Example C15_example : own_prefix ex_base = str "addr_test" /\ valid_hrp (str "stake") /\ str "stake" = str "stake" ++ [].
Proof.
  split; [reflexivity |]. split; [| reflexivity]. split; [discriminate |].
  split; [intros c H; cbn in H; lia | left; intros c H; unfold is_upper; cbn in H; lia].
Qed.

(** C16 *)
Theorem C16_projections : forall b, cred_ok (ba_pay b) -> cred_ok (ba_stake b) -> 0 <= NetworkId (ba_net b) < 16 ->
  let l := addr_bytes (ABase b) in
  length l = 57%nat /\
  addr_bytes (AEnterprise (ToEnterprise b)) = header (6 + script_bit (is_script (ba_pay b))) (NetworkId (ba_net b)) :: firstn 28 (skipn 1 l) /\
  addr_bytes (AReward (ToReward b)) = header (14 + script_bit (is_script (ba_stake b))) (NetworkId (ba_net b)) :: firstn 28 (skipn 29 l).
Proof. exact C16_lemma. Qed.
Print Assumptions C16_projections.
Theorem C16_fields : forall b, ea_net (ToEnterprise b) = ba_net b /\ ea_pay (ToEnterprise b) = ba_pay b /\
  ra_net (ToReward b) = ba_net b /\ ra_stake (ToReward b) = ba_stake b.
Proof. intros b. repeat split. Qed.
Print Assumptions C16_fields.
Example C16_example : match ex_base with ABase b => cred_ok (ba_pay b) /\ cred_ok (ba_stake b) | _ => False end.
Proof. apply ex_base_ok. Qed.

(** C64 is false: truncated base addresses are accepted, from text with zeros in place of the missing
    bytes, from hexadecimal with whatever the decoder left behind. *)
Theorem C64_text_refuted : forall (U : Unicode) a k, shelley_ok a -> is_base a -> (33 <= k <= 56)%nat ->
  exists s b, encode (own_prefix a) (firstn k (addr_bytes a)) = Ok s /\
    @NewAddress U go117 s = Ok b /\ is_base b /\ shelley_ok b /\
    addr_bytes b = firstn k (addr_bytes a) ++ repeat 0 (57 - k).
Proof. exact @C64_text_lemma. Qed.
Print Assumptions C64_text_refuted.
Theorem C64_hex_refuted : forall a k s, shelley_ok a -> is_base a -> (25 <= k <= 56)%nat ->
  map hex_fold s = hex_of (firstn k (addr_bytes a)) ->
  exists b, @NewAddressFromHex go117 s = Ok b /\ is_base b.
Proof. exact C64_hex_lemma. Qed.
Print Assumptions C64_hex_refuted.
(** What does hold: with no spare capacity a truncated base address is never accepted (it panics). *)
Theorem C64_exact_capacity_partial : forall data a, bytes_ok data -> NewAddressFromBytes data [] = Ok a -> is_base a ->
  (57 <= length data)%nat.
Proof.
  intros data a B P I. pose proof (parse_accepted _ _ _ B P) as A. inversion A as [t n pay stake post Ht Hnn Lp Ls E | | | |]; subst a; try contradiction.
  rewrite app_nil_r in E. rewrite E. cbn [length]. rewrite !app_length. lia.
Qed.
Print Assumptions C64_exact_capacity_partial.
Example C64_example : shelley_ok ex_base /\ is_base ex_base.
Proof. split; [apply ex_base_ok | exact I]. Qed.

(** C17 for base, enterprise and pointer addresses. *)
Theorem C17_marshal_partial : forall a, ~ is_byron a -> ~ is_reward a -> zlen (addr_bytes a) < 2 ^ 64 ->
  addr_marshal a = Ok (cbor (Bstr (addr_bytes a))).
Proof.
  intros a B R L. destruct a; cbn [addr_marshal addr_bytes] in *; try (rewrite enc_bytes_spec by auto; reflexivity).
  - exfalso. apply R. exact I.
  - exfalso. apply B. exact I.
Qed.
Print Assumptions C17_marshal_partial.
(** C17 is false of every reward address: marshalling always fails. *)
Theorem C17_reward_refuted : forall r, exists e, addr_marshal (AReward r) = Err e.
Proof. intros r. eexists. reflexivity. Qed.
Print Assumptions C17_reward_refuted.
Example C17_example : zlen (addr_bytes ex_base) = 57 /\ addr_marshal ex_base = Ok (0x58 :: 0x39 :: addr_bytes ex_base).
Proof. split; vm_compute; reflexivity. Qed.
