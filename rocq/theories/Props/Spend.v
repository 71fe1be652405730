(** C122: what is paid to the address that the generate example prints can be spent with its mnemonic. *)
From Verif.Model Require Import Base Bech32 Edwards Network Address Bip32 Keys Wallet Node Mnemonic Cbor Tx Builder.
From Verif.Spec Require Import Bech32Spec BchSpec EdSpec Bip32Spec Cip19 AddressSpec WalletSpec NodeSpec RestoreSpec Bip39Spec FieldsSpec CborSpec ByronSpec TxSpec MdSpec Values World.
From Verif.Proofs Require Import Util Bech32Facts ScalarMult PrimeOrder Bip32Facts KeyFacts FieldsFacts NodeFacts AddressFacts MnemonicFacts CborFacts TxFacts.
From Verif.Props Require Import Edwards Shelley Tx Builder Bip32 Wallet Mnemonic Destination.
Open Scope Z_scope.
#[local] Opaque zmul.

(** What the ledger asks of the spender: after the header byte come the 28 bytes of the payment credential. With an even type number below 8
    (CIP-19) it is the hash of the key whose witness is needed. *)
Definition payment_credential (d : list Z) : list Z := firstn 28 (skipn 1 d).
Definition locked_by_key (d : list Z) : Prop := 0 <= nth 0 d 0 / 16 < 8 /\ (nth 0 d 0 / 16) mod 2 = 0 /\ (29 <= length d)%nat.
(** The payer sends v lovelace to the address [a], as any output of any transaction: what is serialised pays to the bytes [d]. *)
Definition paid_to {MO : MapOrder} (a : Address) (d : list Z) : Prop :=
  forall (C : TxCrypto) n t j v, hash_ok -> tx_ok t -> Forall shelley_out (Outputs (Body t)) ->
    nth_error (Outputs (Body t)) j = Some {| OutAddress := a; OutAmount := v |} ->
    exists it, snd (tx_bytes n t) = Ok (cbor it) /\ item_ok it /\ pays it j d v.
(** The owner signs with [prv], whatever else was done with the builder: Build succeeds with one witness, for the key that the bytes [d] name,
    with a valid signature of the body as it is serialised. *)
Definition spent_with {H : Hashes} {MO : MapOrder} (prv d : list Z) : Prop :=
  forall w b, @reachable (tx_crypto H) MO w -> (b < nbuilders w)%nat -> builder_keys w b = [prv] -> tx_ok (builder_tx w b) ->
    exists w' t' s x, @build (tx_crypto H) MO w b = (w', Ok t') /\ body_marshal (Body (load w' t')) = Ok s /\ Witness (load w' t') = [x] /\
      blake2b_224 (VKey x) = payment_credential d /\ verifies sha512 (VKey x) (blake2b_256 s) (Signature x).

Lemma paid_own (MO : MapOrder) a : runtime_order -> paid_to a (addr_bytes a).
Proof.
  intros RO C n tx j v HK TK SO O. destruct (C21_partial C MO n tx RO HK TK SO) as (aux & meta & it & s' & Eb & -> & I & Ei & _ & _).
  exists it. split; [exact Eb |]. split; [exact I |]. rewrite Ei. unfold pays, tx_item, body_item. do 3 eexists. split; [reflexivity |]. split; [right; left; reflexivity |].
  rewrite !nth_error_map, O. reflexivity.
Qed.
Lemma spent_own (H : Hashes) (MO : MapOrder) prv d : hashes_ok -> runtime_order -> bytes_len 96 prv -> le_value (kL prv) < 2 ^ 255 ->
  blake2b_224 (public_key_of prv) = payment_credential d -> spent_with prv d.
Proof.
  intros HO RO K UB ED w b RW Hb KS TK.
  assert (GK : forall k, In k (builder_keys w b) -> bytes_len 96 k /\ le_value (kL k) < 2 ^ 255) by (rewrite KS; intros k [<- | []]; split; assumption).
  destruct (C69_total H MO w b HO RO TK (fun k I => proj1 (GK k I))) as (w' & t' & EB). destruct (C69_signed H MO w b w' t' HO RW Hb GK EB) as (sb & Eb & F).
  rewrite KS in F. remember (Witness (load w' t')) as ws eqn:EW. inversion F as [| k x ks xs (P & _ & V) F' E2 E3]; subst k ks. assert (NX : xs = []) by (inversion F'; reflexivity). subst xs.
  exists w', t', sb, x. split; [exact EB |]. split; [exact Eb |]. split; [rewrite <- EW; symmetry; exact E3 |]. split; [| exact V]. rewrite P. exact ED.
Qed.
(** The bytes of a wallet's base and enterprise addresses name the wallet's payment key. *)
Lemma wallet_bytes (H : Hashes) (U : Unicode) (RT : Runtime) net root addr prv : hashes_ok -> root_key root -> known_net net -> generateBaseAddress net root = Ok (addr, prv) ->
  bytes_len 96 prv /\ le_value (kL prv) < 2 ^ 255 /\ forall d, d = addr_bytes (ABase addr) \/ d = addr_bytes (AEnterprise (ToEnterprise addr)) -> locked_by_key d /\ blake2b_224 (public_key_of prv) = payment_credential d.
Proof.
  intros HO R N G. destruct (C73_text H U RT net root addr prv HO R N G) as (OK & _). destruct (C73_base_address H net root HO R) as (G' & K & _ & UB & _).
  rewrite G' in G. apply Ok_inj in G. pose proof (f_equal snd G) as EP. pose proof (f_equal fst G) as EA. cbn [fst snd] in EP, EA. clear G G'. rewrite EP in K, UB, EA. split; [exact K |]. split; [exact UB |].
  destruct OK as [[OP OS] _]. pose proof (known_id net N) as NI. subst addr. cbn [ba_pay ba_stake Payload] in OP, OS. clear EP K UB.
  set (h := blake2b_224 (public_key_of prv)) in *. set (g := blake2b_224 (public_key_of (path_key hmac_sha512 root stake_path))) in *. clearbody h g.
  assert (PO : shelley_parts_ok (ABase {| ba_net := net; ba_pay := {| Kind := 0; Payload := h |}; ba_stake := {| Kind := 0; Payload := g |} |})) by (split; assumption).
  assert (PE : shelley_parts_ok (AEnterprise (ToEnterprise {| ba_net := net; ba_pay := {| Kind := 0; Payload := h |}; ba_stake := {| Kind := 0; Payload := g |} |}))) by exact OP.
  pose proof (C04_layout _ PO NI) as L1. pose proof (C04_layout _ PE NI) as L2. cbn [cip19] in L1, L2.
  assert (LH : length h = 28%nat) by apply OP. assert (LG : length g = 28%nat) by apply OS.
  change (addr_bytes (ABase {| ba_net := net; ba_pay := {| Kind := 0; Payload := h |}; ba_stake := {| Kind := 0; Payload := g |} |}) = base_layout (NetworkId net) false false h g) in L1.
  change (addr_bytes (AEnterprise (ToEnterprise {| ba_net := net; ba_pay := {| Kind := 0; Payload := h |}; ba_stake := {| Kind := 0; Payload := g |} |})) = enterprise_layout (NetworkId net) false h) in L2.
  assert (Q : forall ty l, 0 <= ty < 8 -> ty mod 2 = 0 -> locked_by_key (header ty (NetworkId net) :: h ++ l) /\ h = payment_credential (header ty (NetworkId net) :: h ++ l)).
  { intros ty l T0 T1. split.
    - unfold locked_by_key, header. cbn [nth length]. assert (D : (16 * ty + NetworkId net) / 16 = ty) by (rewrite (Z.mul_comm 16), Z.div_add_l, Z.div_small by lia; lia).
      rewrite D. split; [exact T0 |]. split; [exact T1 |]. rewrite app_length. lia.
    - unfold payment_credential. cbn [skipn]. rewrite firstn_app, LH, Nat.sub_diag, firstn_O, app_nil_r, firstn_all2 by lia. reflexivity. }
  intros d [-> | ->].
  - rewrite L1. unfold base_layout. cbn [script_bit]. apply Q; [lia | reflexivity].
  - rewrite L2. unfold enterprise_layout. cbn [script_bit]. pose proof (Q (6 + 0) [] ltac:(lia) eq_refl) as Q0. rewrite app_nil_r in Q0. exact Q0.
Qed.

(** With the sentence that the generate example logged, and nothing else, what was sent to the address it logged can be spent. *)
Theorem C122_generated : forall (H : Hashes) (U : Unicode) (RT : Runtime) (MO : MapOrder) words ent m text sig, hashes_ok -> runtime_order -> word_list words -> bytes_ok ent -> length ent = 32%nat ->
  generate_main words ent = Ok (m, text, sig) ->
  exists a d, NewAddress text = Ok a /\ bech32_text text (str "addr") d /\ locked_by_key d /\ paid_to a d /\
    exists e root addr prv, EntropyFromMnemonic words m = Some e /\ FromBip39Entropy e [] = Ok root /\ generateBaseAddress MainNet root = Ok (addr, prv) /\ spent_with prv d.
Proof.
  intros H U RT MO words ent m text sig HO RO W B L GM. destruct (sentence_exists H words ent HO B ltac:(unfold entropy_length; auto 10)) as (nums & S1 & E1).
  destruct (restored_texts H U RT MainNet ent HO ltac:(left; reflexivity)) as (root & addr & prv & s & t & E & R & G & RB & Es & T & GE & Et & _ & N1 & N2).
  unfold generate_main in GM. rewrite E1, E in GM. cbn [bind] in GM. rewrite G in GM. cbn [bind] in GM. rewrite Es in GM. cbn [bind] in GM. destruct (accountKey root) as [ak | |]; cbn [bind] in GM; try discriminate.
  destruct (Sign ak (str "Hello There")) as [sg | |]; cbn [bind] in GM; try discriminate. apply Ok_inj in GM. pose proof (f_equal (fun p => fst (fst p)) GM) as Em. pose proof (f_equal (fun p => snd (fst p)) GM) as Ete. cbn [fst snd] in Em, Ete. subst m text. clear GM.
  destruct (sentence_words H words ent nums HO W S1) as (FW & LW & FJ). assert (SE : EntropyFromMnemonic words (joined (spelled words nums)) = Some ent) by (apply entropy_exact; [exact HO | exact W |]; exists nums; split; [exact S1 | exact FJ]).
  destruct (wallet_bytes H U RT MainNet root addr prv HO R ltac:(left; reflexivity) G) as (K & UB & WB). destruct (WB _ (or_introl eq_refl)) as [LK ED].
  destruct (C73_text H U RT MainNet root addr prv HO R ltac:(left; reflexivity) G) as (_ & s2 & Es2 & T2 & _). rewrite Es in Es2. apply Ok_inj in Es2. subst s2.
  exists (ABase addr), (addr_bytes (ABase addr)). split; [exact N1 |]. split. { destruct (C73_base_address H MainNet root HO R) as (G' & _). rewrite G in G'. apply Ok_inj in G'. apply (f_equal fst) in G'. cbn [fst] in G'. subst addr. exact T2. }
  split; [exact LK |]. split; [apply paid_own; exact RO |]. exists ent, root, addr, prv. split; [exact SE |]. split; [exact E |]. split; [exact G |]. apply spent_own; assumption.
Qed.
Print Assumptions C122_generated.
(** The same for everything the restore example prints: on both networks, base and enterprise addresses, one key for both. *)
Definition label (ty : Z) : list Z := if ty =? 0 then str "Enterprise Address: " else str "Base Address: ".
Theorem C122_restored : forall (H : Hashes) (U : Unicode) (RT : Runtime) (MO : MapOrder) words m ent flag id ty text, hashes_ok -> runtime_order -> word_list words -> taken words m ent -> named flag id ->
  ty = 0 \/ ty = 1 -> restore_main words m ty flag = Ok (Printed (label ty ++ text)) ->
  exists a d, NewAddress text = Ok a /\ bech32_text text (address_prefix id) d /\ locked_by_key d /\ paid_to a d /\
    exists net root addr prv, NetworkId net = id /\ FromBip39Entropy ent [] = Ok root /\ generateBaseAddress net root = Ok (addr, prv) /\ spent_with prv d.
Proof.
  intros H U RT MO words m ent flag id ty text HO RO W [C SE] NM TY RM. destruct (named_net flag id NM) as (net & KN & NI & EN).
  destruct (restored_texts H U RT net ent HO KN) as (root & addr & prv & s & t & E & R & G & RB & Es & T & GE & Et & TT & N1 & N2).
  destruct (wallet_bytes H U RT net root addr prv HO R KN G) as (K & UB & WB). destruct (C73_text H U RT net root addr prv HO R KN G) as (OK & s2 & Es2 & T2 & _). rewrite Es in Es2. apply Ok_inj in Es2. subst s2.
  assert (NA : ba_net addr = net). { destruct (C73_base_address H net root HO R) as (G' & _). rewrite G in G'. apply Ok_inj in G'. apply (f_equal fst) in G'. cbn [fst] in G'. subst addr. reflexivity. }
  assert (OE : shelley_ok (AEnterprise (ToEnterprise addr))). { destruct OK as [[OP _] _]. split; [exact OP |]. change (known_net (ba_net addr)). rewrite NA. exact KN. }
  destruct (C06_bip173 U RT _ OE ltac:(intros [])) as (t2 & Et2 & TE & _). rewrite Et in Et2. apply Ok_inj in Et2. subst t2.
  assert (PF : own_prefix (ABase addr) = address_prefix id /\ own_prefix (AEnterprise (ToEnterprise addr)) = address_prefix id) by (rewrite <- NI, <- NA; split; reflexivity). destruct PF as [P1 P2]. rewrite P1 in T2. rewrite P2 in TE.
  apply (entropy_exact H words m ent HO W) in SE. apply split_check in C as C'. unfold restore_main in RM. rewrite (nonempty_count m C), C' in RM. cbn [negb] in RM. rewrite EN in RM.
  destruct TY as [-> | ->]; cbn [Z.eqb Pos.eqb] in RM; rewrite SE in RM.
  - rewrite GE in RM. cbn [bind] in RM. rewrite Et in RM. cbn [bind] in RM. assert (X : text = t). { assert (Y : str "Enterprise Address: " ++ t = label 0 ++ text) by congruence. symmetry. exact (app_inv_head _ _ _ Y). } subst text.
    destruct (WB _ (or_intror eq_refl)) as [LK ED]. exists (AEnterprise (ToEnterprise addr)), (addr_bytes (AEnterprise (ToEnterprise addr))). split; [exact N2 |]. split; [exact TE |]. split; [exact LK |]. split; [apply paid_own; exact RO |].
    exists net, root, addr, prv. split; [exact NI |]. split; [exact E |]. split; [exact G |]. apply spent_own; assumption.
  - rewrite RB in RM. cbn [bind] in RM. rewrite Es in RM. cbn [bind] in RM. assert (X : text = s). { assert (Y : str "Base Address: " ++ s = label 1 ++ text) by congruence. symmetry. exact (app_inv_head _ _ _ Y). } subst text.
    destruct (WB _ (or_introl eq_refl)) as [LK ED]. exists (ABase addr), (addr_bytes (ABase addr)). split; [exact N1 |]. split; [exact T2 |]. split; [exact LK |]. split; [apply paid_own; exact RO |].
    exists net, root, addr, prv. split; [exact NI |]. split; [exact E |]. split; [exact G |]. apply spent_own; assumption.
Qed.
Print Assumptions C122_restored.
(** A wallet, and a builder with any one key. *)
Definition C122_world (prv : bytes) : World :=
  @run (tx_crypto toy_hashes) id_order empty_world [OMakeKeys [prv] 0; ONewBuilder ex_fees {| s_arr := 0; s_off := 0; s_len := 1 |}; OAddInputs 0 [ex_input 5000000]; OSetTTL 0 5000].
Example C122_example : exists m text sig, @generate_main toy_hashes no_unicode ex_words (repeat 7 32) = Ok (m, text, sig) /\ @taken toy_hashes ex_words m (repeat 7 32) /\
  @restore_main toy_hashes no_unicode ex_words m 1 (str "mainnet") = Ok (Printed (label 1 ++ text)) /\
  forall prv, @reachable (tx_crypto toy_hashes) id_order (C122_world prv) /\ (0 < nbuilders (C122_world prv))%nat /\ builder_keys (C122_world prv) 0 = [prv] /\ tx_ok (builder_tx (C122_world prv) 0).
Proof.
  destruct C112_example as (m & text & sig & nums & x & G & R & T & _). exists m, text, sig. split; [exact G |]. split; [exact T |]. split; [exact R |]. intros prv.
  split; [eexists; split; [| reflexivity]; cbn [valid_run]; repeat (split; [cbn; try exact Logic.I; lia |]); exact Logic.I |]. split; [cbn; lia |]. split; [reflexivity |].
  split; [|split; [split; [constructor | cbn; lia] | exact Logic.I]]. unfold body_ok.
  set (B := Body _). assert (EB : B = {| Inputs := [ex_input 5000000]; Outputs := []; Fee := 0; TTL := 5000; AuxHash := [] |}) by reflexivity. clearbody B. subst B. cbn [Inputs Outputs Fee TTL AuxHash].
  split; [|split; [constructor | split; [vm_compute; reflexivity | split; [vm_compute; reflexivity | split; [lia | split; [lia | split; [intros y [] | vm_compute; reflexivity]]]]]]].
  constructor; [|constructor]. split; [intros y I; apply repeat_spec in I; subst y; lia |]. split; [vm_compute; reflexivity | cbn; lia].
Qed.
