(** C112, C113: mnemonics of the address examples. *)
From Verif.Model Require Import Base Bech32 Edwards Network Address Bip32 Keys Wallet Node Mnemonic.
From Verif.Spec Require Import Bech32Spec EdSpec Bip32Spec Cip19 AddressSpec WalletSpec NodeSpec RestoreSpec Bip39Spec FieldsSpec.
From Verif.Proofs Require Import Util Bech32Facts ScalarMult PrimeOrder Bip32Facts KeyFacts FieldsFacts NodeFacts AddressFacts MnemonicFacts.
From Verif.Props Require Import Edwards Bip32 Shelley Wallet.
Open Scope Z_scope.
#[local] Opaque zmul.

(** ** C112 *)
(** NewMnemonic gives the BIP-39 sentence of the entropy, for the five lengths of BIP-39 and no other. *)
Theorem C112_sentence : forall (H : Hashes) words m ent, hashes_ok -> bytes_ok ent ->
  (NewMnemonic words ent = Some m <-> exists nums, sentence sha256 ent nums /\ m = joined (spelled words nums)).
Proof. exact mnemonic_exact. Qed.
Print Assumptions C112_sentence.
(** EntropyFromMnemonic accepts exactly the BIP-39 sentences, however their words are spaced, and gives back the entropy. *)
Theorem C112_entropy : forall (H : Hashes) words m ent, hashes_ok -> word_list words ->
  (EntropyFromMnemonic words m = Some ent <-> exists nums, sentence sha256 ent nums /\ has_fields m (spelled words nums)).
Proof. exact entropy_exact. Qed.
Print Assumptions C112_entropy.
Theorem C112_roundtrip : forall (H : Hashes) words m ent, hashes_ok -> word_list words -> bytes_ok ent ->
  NewMnemonic words ent = Some m -> EntropyFromMnemonic words m = Some ent.
Proof.
  intros H words m ent HO W B E. apply mnemonic_exact in E as (nums & S1 & ->); [| exact HO | exact B]. apply entropy_exact; [exact HO | exact W |]. exists nums. split; [exact S1 |].
  apply fields_exact, fields_joined, spelled_words; [exact W | apply S1].
Qed.
Print Assumptions C112_roundtrip.

Lemma sentence_words (H : Hashes) words ent nums : hashes_ok -> word_list words -> sentence sha256 ent nums -> Forall word (spelled words nums) /\ length (spelled words nums) = (3 * length ent / 4)%nat /\ has_fields (joined (spelled words nums)) (spelled words nums).
Proof.
  intros HO W S1. pose proof (spelled_words words nums W (proj1 (proj2 (proj2 S1)))) as F. split; [exact F |]. split; [| apply fields_exact, fields_joined; exact F].
  assert (LN : length (spelled words nums) = length nums) by apply map_length. rewrite LN. pose proof S1 as (EN & B & FN & _). apply (sentence_number H ent nums HO EN B FN) in S1 as [E _].
  destruct EN as [X | [X | [X | [X | X]]]]; rewrite X in E |- *; cbn in E |- *; lia.
Qed.
Lemma sentence_exists (H : Hashes) words ent : hashes_ok -> bytes_ok ent -> entropy_length (length ent) -> exists nums, sentence sha256 ent nums /\ NewMnemonic words ent = Some (joined (spelled words nums)).
Proof.
  intros HO B EN. assert (X : exists m, NewMnemonic words ent = Some m).
  { unfold NewMnemonic. cbv zeta. replace (negb (zlen ent * 8 mod 32 =? 0) || (zlen ent * 8 <? 128) || (256 <? zlen ent * 8)) with false; [eauto |].
    unfold zlen. destruct EN as [-> | [-> | [-> | [-> | ->]]]]; reflexivity. }
  destruct X as (m & E). pose proof E as E'. apply mnemonic_exact in E' as (nums & S1 & ->); [| exact HO | exact B]. exists nums. split; assumption.
Qed.

(** The texts the two recipes print *)
Lemma known_id net : known_net net -> 0 <= NetworkId net < 16.
Proof. intros N. apply known_net_id. exact N. Qed.
Lemma restored_texts (H : Hashes) (U : Unicode) (RT : Runtime) net ent : hashes_ok -> known_net net -> exists root addr prv s t,
  FromBip39Entropy ent [] = Ok root /\ root_key root /\ generateBaseAddress net root = Ok (addr, prv) /\
  restoreBaseAddress net ent = Ok addr /\ addr_string (ABase addr) = Ok s /\ base_text hmac_sha512 blake2b_224 root (NetworkId net) s /\
  generateEnterprise net ent = Ok (ToEnterprise addr) /\ addr_string (AEnterprise (ToEnterprise addr)) = Ok t /\ enterprise_text hmac_sha512 blake2b_224 root (NetworkId net) t /\
  NewAddress s = Ok (ABase addr) /\ NewAddress t = Ok (AEnterprise (ToEnterprise addr)).
Proof.
  intros HO N. destruct (C73_restore H net ent HO) as (root & addr & prv & E & R & G & RB & GE). destruct (C73_text H U RT net root addr prv HO R N G) as (OK & s & Es & T & Nw).
  destruct (C73_base_address H net root HO R) as (G' & _). rewrite G in G'. apply Ok_inj in G'. pose proof (f_equal fst G') as A. cbn [fst] in A. clear G'.
  assert (OE : shelley_ok (AEnterprise (ToEnterprise addr))). { destruct OK as [[OP _] _]. split; [exact OP |]. subst addr. exact N. }
  destruct (C06_bip173 U RT _ OE ltac:(intros [])) as (t & Et & TT & _). destruct (C06_string_roundtrip U RT _ OE ltac:(intros [])) as (t2 & body & Et2 & _ & Nt & _). rewrite Et in Et2. apply Ok_inj in Et2. subst t2.
  exists root, addr, prv, s, t. split; [exact E |]. split; [exact R |]. split; [exact G |]. split; [exact RB |]. split; [exact Es |]. pose proof (known_id net N) as NI.
  assert (PF : own_prefix (ABase addr) = address_prefix (NetworkId net) /\ own_prefix (AEnterprise (ToEnterprise addr)) = address_prefix (NetworkId net)) by (subst addr; split; reflexivity). destruct PF as [P1 P2].
  rewrite P1 in T. rewrite P2 in TT. pose proof (C04_layout (ABase addr) (proj1 OK) ltac:(subst addr; exact NI)) as L1. pose proof (C04_layout (AEnterprise (ToEnterprise addr)) (proj1 OE) ltac:(subst addr; exact NI)) as L2.
  cbn [cip19] in L1, L2. rewrite L1 in T. rewrite L2 in TT. subst addr.
  split; [exact T |]. split; [exact GE |]. split; [exact Et |]. split; [exact TT |]. split; [exact Nw | exact Nt].
Qed.

(** The generate program: what it logs for 32 bytes of entropy, the signature being one by the account key. *)
Theorem C112_generate : forall (H : Hashes) (U : Unicode) (RT : Runtime) words ent, hashes_ok -> bytes_ok ent -> length ent = 32%nat ->
  exists nums root s sig, sentence sha256 ent nums /\ FromBip39Entropy ent [] = Ok root /\ base_text hmac_sha512 blake2b_224 root 1 s /\
    generate_main words ent = Ok (joined (spelled words nums), s, sig) /\
    verifies sha512 (public_key_of (path_key hmac_sha512 root account_path)) (str "Hello There") sig.
Proof.
  intros H U RT words ent HO B L. destruct (sentence_exists H words ent HO B ltac:(unfold entropy_length; auto 10)) as (nums & S1 & E1).
  destruct (restored_texts H U RT MainNet ent HO ltac:(left; reflexivity)) as (root & addr & prv & s & t & E & R & G & _ & Es & T & _).
  assert (V : harden 1852 = hard 1852 /\ harden 1815 = hard 1815 /\ harden 0 = hard 0) by (repeat split; reflexivity). destruct V as (V1 & V2 & V3).
  assert (I32 : Forall (fun i => 0 <= i < 2 ^ 32) account_path) by (unfold account_path, hard; repeat (apply Forall_cons; [lia |]); apply Forall_nil).
  destruct (derive_path_key H account_path HO I32 0 root ltac:(lia) ltac:(unfold account_path, zlen; cbn [length]; lia) (root_grown H root HO R)) as [DA GA].
  assert (AK : accountKey root = Ok (path_key hmac_sha512 root account_path)).
  { rewrite <- DA. unfold accountKey, account_path. rewrite V1, V2, V3. cbn [derive_path]. destruct (Derive root (hard 1852)) as [k1 | |]; cbn [bind]; try reflexivity. destruct (Derive k1 (hard 1815)) as [k2 | |]; cbn [bind]; try reflexivity.
    destruct (Derive k2 (hard 0)); reflexivity. }
  remember (path_key hmac_sha512 root account_path) as ak eqn:EA. destruct GA as (K & _ & _ & UA).
  assert (U255 : le_value (kL ak) < 2 ^ 255) by (revert UA; unfold account_path, zlen; cbn [length]; lia).
  destruct (C50_sign H ak (str "Hello There") HO K U255) as (pk & c & sig & P & PL & SG & _ & VF).
  exists nums, root, s, sig. split; [exact S1 |]. split; [exact E |]. split; [exact T |]. split.
  - unfold generate_main. rewrite E1, E. cbn [bind]. rewrite G. cbn [bind]. rewrite Es. cbn [bind]. rewrite AK. cbn [bind]. rewrite SG. reflexivity.
  - rewrite <- EA. clear EA. unfold public_key_of. rewrite (Public_eq ak K) in P. rewrite pk_of_exact in P by (try exact K; pose proof limit_255; lia). apply Ok_inj in P.
    assert (EP : public_of (le_value (kL ak)) = pk). { destruct PL as [_ L2]. destruct (pk_of_ok ak K) as [_ L3]. rewrite pk_of_exact in L3 by (try exact K; pose proof limit_255; lia). apply (f_equal (firstn 32)) in P.
      rewrite !firstn_app, L2, L3, Nat.sub_diag, !firstn_O, !app_nil_r, !firstn_all2 in P by lia. exact P. }
    rewrite EP. exact VF.
Qed.
Print Assumptions C112_generate.

(** The network flag *)
Definition named (flag : bytes) (id : Z) : Prop := flag = str "mainnet" /\ id = 1 \/ flag = str "testnet" /\ id = 0.
(** A phrase the restore program takes: 23 spaces, and the words of a BIP-39 sentence *)
Definition taken {H : Hashes} (words : list bytes) (m ent : bytes) : Prop :=
  count_occ Z.eq_dec m 32 = 23%nat /\ exists nums, sentence sha256 ent nums /\ has_fields m (spelled words nums).
Lemma split_check m : (zlen (split_spaces m) =? 24) = true <-> count_occ Z.eq_dec m 32 = 23%nat.
Proof. unfold zlen. rewrite split_spaces_count, Z.eqb_eq. lia. Qed.
Lemma named_net flag id : named flag id -> exists net, known_net net /\ NetworkId net = id /\
  (if bytes_eqb flag (str "mainnet") then Some MainNet else if bytes_eqb flag (str "testnet") then Some TestNet else None) = Some net.
Proof. intros [[-> ->] | [-> ->]]; [exists MainNet | exists TestNet]; (split; [| split; reflexivity]); [left | right]; reflexivity. Qed.
Lemma named_none flag : (forall id, ~ named flag id) ->
  (if bytes_eqb flag (str "mainnet") then Some MainNet else if bytes_eqb flag (str "testnet") then Some TestNet else None) = None.
Proof.
  intros N. destruct (bytes_eqb flag (str "mainnet")) eqn:E; [apply bytes_eqb_eq in E; elim (N 1); left; auto |].
  destruct (bytes_eqb flag (str "testnet")) eqn:E2; [apply bytes_eqb_eq in E2; elim (N 0); right; auto | reflexivity].
Qed.
Lemma nonempty_count m : count_occ Z.eq_dec m 32 = 23%nat -> bytes_eqb m [] = false.
Proof. destruct m; [discriminate | reflexivity]. Qed.

(** The restore program, exactly. For the types 0 and 1 it prints the address of the phrase's entropy if it takes the phrase and the
    network, and otherwise ends with an error. *)
Theorem C112_prints : forall (H : Hashes) (U : Unicode) (RT : Runtime) words m ent flag id, hashes_ok -> word_list words -> taken words m ent -> named flag id ->
  exists root s t, FromBip39Entropy ent [] = Ok root /\
    base_text hmac_sha512 blake2b_224 root id s /\ restore_main words m 1 flag = Ok (Printed (str "Base Address: " ++ s)) /\
    enterprise_text hmac_sha512 blake2b_224 root id t /\ restore_main words m 0 flag = Ok (Printed (str "Enterprise Address: " ++ t)).
Proof.
  intros H U RT words m ent flag id HO W [C SE] NM. destruct (named_net flag id NM) as (net & KN & NI & EN). destruct (restored_texts H U RT net ent HO KN) as (root & addr & prv & s & t & E & R & G & RB & Es & T & GE & Et & TT & _).
  exists root, s, t. rewrite <- NI. split; [exact E |]. split; [exact T |]. apply (entropy_exact H words m ent HO W) in SE. apply split_check in C as C'. unfold restore_main. rewrite (nonempty_count m C), C'. cbn [negb]. rewrite EN.
  cbn [Z.eqb Pos.eqb]. rewrite SE, RB. cbn [bind]. rewrite Es. cbn [bind]. split; [reflexivity |]. split; [exact TT |]. rewrite GE. cbn [bind]. rewrite Et. reflexivity.
Qed.
Print Assumptions C112_prints.
Theorem C112_rejects : forall (H : Hashes) (U : Unicode) words m t flag, hashes_ok -> word_list words -> t = 0 \/ t = 1 ->
  (forall id ent, ~ (named flag id /\ taken words m ent)) -> restore_main words m t flag = Ok Fatal.
Proof.
  intros H U words m t flag HO W T N. unfold restore_main. destruct (bytes_eqb m []) eqn:M; [reflexivity |]. destruct (zlen (split_spaces m) =? 24) eqn:Z; [| reflexivity]. cbn [negb].
  set (x := if bytes_eqb flag (str "mainnet") then _ else _). assert (X : x = None \/ exists id, named flag id /\ x <> None).
  { subst x. destruct (bytes_eqb flag (str "mainnet")) eqn:E; [apply bytes_eqb_eq in E; right; exists 1; split; [left; auto | discriminate] |].
    destruct (bytes_eqb flag (str "testnet")) eqn:E2; [apply bytes_eqb_eq in E2; right; exists 0; split; [right; auto | discriminate] | left; reflexivity]. }
  destruct X as [-> | (id & NM & _)]; [reflexivity |]. destruct x as [net |]; [| reflexivity].
  assert (E : EntropyFromMnemonic words m = None).
  { destruct (EntropyFromMnemonic words m) as [ent |] eqn:E; [| reflexivity]. exfalso. apply (entropy_exact H words m ent HO W) in E. apply (N id ent). split; [exact NM |]. split; [apply split_check; exact Z | exact E]. }
  rewrite E. destruct T as [-> | ->]; reflexivity.
Qed.
Print Assumptions C112_rejects.
(** Another type is accepted in silence: nothing is printed, and the phrase is not even checked. *)
Theorem C112_type_refuted : forall (H : Hashes) (U : Unicode) words m t flag id, t <> 0 -> t <> 1 -> count_occ Z.eq_dec m 32 = 23%nat -> named flag id ->
  restore_main words m t flag = Ok (Printed []).
Proof.
  intros H U words m t flag id T0 T1 C NM. destruct (named_net flag id NM) as (net & _ & _ & EN). apply split_check in C as C'. unfold restore_main. rewrite (nonempty_count m C), C'. cbn [negb]. rewrite EN.
  rewrite (proj2 (Z.eqb_neq t 0) T0), (proj2 (Z.eqb_neq t 1) T1). reflexivity.
Qed.
Print Assumptions C112_type_refuted.

(** The phrase that the generate program logs restores the address that it logs, and the enterprise address has its payment credential. *)
Theorem C112_restore : forall (H : Hashes) (U : Unicode) (RT : Runtime) words ent m text sig, hashes_ok -> word_list words -> bytes_ok ent -> length ent = 32%nat ->
  generate_main words ent = Ok (m, text, sig) ->
  restore_main words m 1 (str "mainnet") = Ok (Printed (str "Base Address: " ++ text)) /\
  exists addr t, NewAddress text = Ok (ABase addr) /\ restore_main words m 0 (str "mainnet") = Ok (Printed (str "Enterprise Address: " ++ t)) /\
    NewAddress t = Ok (AEnterprise (ToEnterprise addr)).
Proof.
  intros H U RT words ent m text sig HO W B L GM. destruct (sentence_exists H words ent HO B ltac:(unfold entropy_length; auto 10)) as (nums & S1 & E1).
  destruct (restored_texts H U RT MainNet ent HO ltac:(left; reflexivity)) as (root & addr & prv & s & t & E & R & G & RB & Es & _ & GE & Et & _ & N1 & N2).
  unfold generate_main in GM. rewrite E1, E in GM. cbn [bind] in GM. rewrite G in GM. cbn [bind] in GM. rewrite Es in GM. cbn [bind] in GM. destruct (accountKey root) as [ak | |]; cbn [bind] in GM; try discriminate.
  destruct (Sign ak (str "Hello There")) as [sg | |]; cbn [bind] in GM; try discriminate. apply Ok_inj in GM. pose proof (f_equal (fun p => fst (fst p)) GM) as Em. pose proof (f_equal (fun p => snd (fst p)) GM) as Ete. cbn [fst snd] in Em, Ete. subst m text. clear GM.
  destruct (sentence_words H words ent nums HO W S1) as (FW & LW & FJ). assert (SE : EntropyFromMnemonic words (joined (spelled words nums)) = Some ent) by (apply entropy_exact; [exact HO | exact W |]; exists nums; split; [exact S1 | exact FJ]).
  assert (C : count_occ Z.eq_dec (joined (spelled words nums)) 32 = 23%nat).
  { rewrite L in LW. assert (LW' : length (spelled words nums) = 24%nat) by exact LW. pose proof (joined_count _ FW ltac:(intros X; rewrite X in LW'; discriminate)) as J. lia. }
  apply split_check in C as C'. unfold restore_main. rewrite (nonempty_count _ C), C'. change (bytes_eqb (str "mainnet") (str "mainnet")) with true. cbn [negb Z.eqb Pos.eqb]. cbv iota. rewrite SE.
  rewrite RB. cbn [bind]. rewrite Es. cbn [bind]. split; [reflexivity |]. exists addr, t. split; [exact N1 |]. rewrite GE. cbn [bind]. rewrite Et. split; [reflexivity | exact N2].
Qed.
Print Assumptions C112_restore.

(** "Only phrases of 24 words are restored" is false: the program counts spaces. A phrase of 12 words followed by 12 spaces is taken; a
    valid phrase of 24 words with two spaces between the first two is refused. *)
Lemma fields_trailing l n : Forall word l -> fields (joined l ++ repeat 32 n) = l.
Proof.
  intros F. destruct n as [| n]; [cbn [repeat]; rewrite app_nil_r; apply fields_joined; exact F |].
  assert (B : blanks (repeat 32 (S n))) by (split; [discriminate |]; intros c I; apply repeat_spec in I; left; symmetry; exact I).
  assert (N : fields (repeat 32 (S n)) = []). { rewrite <- (app_nil_r (repeat 32 (S n))). unfold fields. fold (fields_from (repeat 32 (S n) ++ []) []). rewrite fields_gap by apply B. reflexivity. }
  induction F as [| w l W F IH]; [exact N |]. destruct l as [| x l].
  - cbn [joined]. rewrite <- (app_nil_r (repeat 32 (S n))). rewrite fields_word_gap by assumption. reflexivity.
  - change (joined (w :: x :: l)) with (w ++ [32] ++ joined (x :: l)). rewrite <- !app_assoc, fields_word_gap; [rewrite IH; reflexivity | exact W |]. split; [discriminate |]. intros c [<- | []]. left. reflexivity.
Qed.
Theorem C112_words_refuted : forall (H : Hashes) (U : Unicode) (RT : Runtime) words, hashes_ok -> word_list words ->
  (exists m l out, has_fields m l /\ length l = 12%nat /\ restore_main words m 1 (str "mainnet") = Ok (Printed (str "Base Address: " ++ out))) /\
  (exists m l ent, length ent = 32%nat /\ has_fields m l /\ length l = 24%nat /\ EntropyFromMnemonic words m = Some ent /\ forall t, restore_main words m t (str "mainnet") = Ok Fatal).
Proof.
  intros H U RT words HO W. split.
  - assert (B : bytes_ok (repeat 0 16)) by (apply Forall_forall; intros x I; apply repeat_spec in I; subst x; unfold is_byte; lia).
    destruct (sentence_exists H words (repeat 0 16) HO B ltac:(left; apply repeat_length)) as (nums & S1 & _). destruct (sentence_words H words _ nums HO W S1) as (FW & LW & _). rewrite repeat_length in LW. assert (LW' : length (spelled words nums) = 12%nat) by exact LW.
    pose proof (fields_trailing _ 12 FW) as FT. set (m := joined (spelled words nums) ++ repeat 32 12) in *. assert (TK : taken words m (repeat 0 16)).
    { split; [| exists nums; split; [exact S1 | apply fields_exact; exact FT]]. subst m. rewrite count_occ_app. pose proof (joined_count _ FW ltac:(intros X; rewrite X in LW'; discriminate)) as J.
      replace (count_occ Z.eq_dec (repeat 32 12) 32) with 12%nat by reflexivity. lia. }
    destruct (C112_prints H U RT words m _ (str "mainnet") 1 HO W TK ltac:(left; auto)) as (root & s & t & _ & _ & E & _). exists m, (spelled words nums), s. split; [apply fields_exact; exact FT |]. split; [exact LW' | exact E].
  - assert (B : bytes_ok (repeat 0 32)) by (apply Forall_forall; intros x I; apply repeat_spec in I; subst x; unfold is_byte; lia).
    destruct (sentence_exists H words (repeat 0 32) HO B ltac:(right; right; right; right; apply repeat_length)) as (nums & S1 & _). destruct (sentence_words H words _ nums HO W S1) as (FW & LW & _). rewrite repeat_length in LW. assert (LW' : length (spelled words nums) = 24%nat) by exact LW.
    destruct (spelled words nums) as [| w [| x l]] eqn:ES; try discriminate. inversion FW as [| ? ? Ww FW']; subst. set (m := w ++ [32; 32] ++ joined (x :: l)). exists m, (spelled words nums), (repeat 0 32).
    assert (FM : fields m = spelled words nums). { subst m. rewrite fields_word_gap; [rewrite fields_joined, ES by exact FW'; reflexivity | exact Ww |]. split; [discriminate |]. intros c [<- | [<- | []]]; left; reflexivity. }
    apply fields_exact in FM. split; [reflexivity |]. split; [exact FM |]. split; [rewrite ES; exact LW' |]. split; [apply entropy_exact; [exact HO | exact W |]; exists nums; split; [exact S1 | exact FM] |].
    intros t. unfold restore_main. destruct (bytes_eqb m []); [reflexivity |]. destruct (zlen (split_spaces m) =? 24) eqn:Z; [| reflexivity]. exfalso. apply split_check in Z. subst m. rewrite count_occ_app, (word_count w Ww) in Z.
    cbn [app count_occ] in Z. destruct (Z.eq_dec 32 32) as [_ | Q]; [| contradiction]. pose proof (joined_count _ FW' ltac:(discriminate)) as J. cbn [length] in J, LW'. lia.
Qed.
Print Assumptions C112_words_refuted.

(** ** C113: mistyped words *)
(** Given all words but the last, the last word can be chosen in exactly 2 ^ (11 - c) ways, c the number of bits of the checksum
    (8 ways for 24 words, 128 ways for 12), one for each value of its first 11 - c bits. *)
Theorem C113_last : forall (H : Hashes) n nums, hashes_ok -> entropy_length n -> length nums = (3 * n / 4 - 1)%nat -> Forall (fun i => 0 <= i < 2048) nums ->
  exists lasts, map (fun x => x / 2 ^ Z.of_nat (n / 4)) lasts = map Z.of_nat (seq 0 (2 ^ (11 - n / 4))) /\
    forall x, In x lasts <-> exists ent, sentence sha256 ent (nums ++ [x]).
Proof.
  intros H n nums HO EN LN F. set (c := (n / 4)%nat). assert (C : (4 <= c <= 8)%nat) by (subst c; destruct EN as [-> | [-> | [-> | [-> | ->]]]]; cbv; lia).
  set (k := (3 * n / 4)%nat) in *. assert (K : (11 * k = 8 * n + n / 4)%nat /\ (0 < k)%nat) by (subst k; destruct EN as [-> | [-> | [-> | [-> | ->]]]]; cbv; lia). destruct K as [K K0]. fold c in K.
  set (e := Z.of_nat). set (q := 2 ^ Z.of_nat c). set (p := 2 ^ Z.of_nat (11 - c)). assert (QP : p * q = 2048) by (subst p q; rewrite <- Z.pow_add_r by lia; replace (Z.of_nat (11 - c) + Z.of_nat c) with 11 by lia; reflexivity).
  assert (Q0 : 0 < q) by (subst q; lia). assert (P0 : 0 < p) by (subst p; lia).
  set (en := fun e : Z => padByteSlice (Base58.digits 256 (bev 2048 nums * p + e)) n). set (x := fun e : Z => e * q + checksum c (nth 0 (sha256 (en e)) 0)).
  pose proof (bev_range 2048 nums ltac:(lia) F) as R. unfold zlen in R. rewrite LN in R.
  assert (BD : 2048 ^ Z.of_nat (k - 1) * p = 256 ^ Z.of_nat n).
  { apply (Z.mul_reg_r _ _ q); [lia |]. rewrite <- Z.mul_assoc, QP. pose proof (number_bound n k K) as NB. fold c in NB. fold q in NB. rewrite <- NB. replace (Z.of_nat k) with (Z.of_nat (k - 1) + 1) by lia. rewrite Z.pow_add_r by lia. reflexivity. }
  assert (EE : forall e, 0 <= e < p -> length (en e) = n /\ bytes_ok (en e) /\ bev 256 (en e) = bev 2048 nums * p + e).
  { intros e' E'. apply pad_digits. nia. }
  assert (FI : forall m, 0 <= nth 0 (sha256 m) 0 < 256). { intros m. destruct HO as (SB & _). destruct (SB m) as [B0 L0]. apply (proj1 (Forall_forall _ _) B0), nth_In. lia. }
  assert (CR : forall m, 0 <= checksum c (nth 0 (sha256 m) 0) < q) by (intros m; apply checksum_range; [lia | apply FI]).
  exists (map (fun i => x (e i)) (seq 0 (2 ^ (11 - c)))). assert (PN : Z.of_nat (2 ^ (11 - c)) = p) by (subst p; rewrite Nat2Z.inj_pow; reflexivity). split.
  { rewrite map_map. apply map_ext_in. intros i I. subst x. cbv beta. subst e. fold q. rewrite Z.div_add_l by lia. rewrite Z.div_small by apply CR. lia. }
  intros y. rewrite in_map_iff. split.
  - intros (i & <- & I). apply in_seq in I. assert (I' : 0 <= e i < p) by (subst e; rewrite <- PN; lia). exists (en (e i)). destruct (EE _ I') as (L1 & B1 & V1). set (ei := e i) in *. clearbody ei.
    assert (XR : 0 <= x ei < 2048). { unfold x. specialize (CR (en ei)). nia. }
    apply sentence_number; [exact HO | rewrite L1; exact EN | exact B1 | apply Forall_app; split; [exact F | constructor; [exact XR | constructor]] |]. rewrite L1. fold c. split; [rewrite app_length, LN; cbn [length]; lia |].
    rewrite bev_snoc, V1. unfold x. fold q. set (a := bev 2048 nums). rewrite <- QP. ring.
  - intros (ent & S1). pose proof S1 as (EN' & B' & F' & _). apply (sentence_number H ent _ HO EN' B' F') in S1 as [L V]. rewrite app_length, LN in L. cbn [length] in L. assert (LE : length ent = n).
    { replace (k - 1 + 1)%nat with k in L by lia. subst k. destruct EN as [-> | [-> | [-> | [-> | ->]]]]; destruct EN' as [X | [X | [X | [X | X]]]]; rewrite X in L |- *; cbv in L; lia. }
    rewrite LE in V. fold c in V. fold q in V. rewrite bev_snoc in V. apply Forall_app in F' as [_ FY]. inversion FY as [| ? ? Y _]; subst.
    set (h := y / q). assert (HR : 0 <= h < p). { subst h. split; [apply Z.div_pos; lia |]. apply Z.div_lt_upper_bound; [lia |]. rewrite Z.mul_comm, QP. lia. }
    pose proof (Z.div_mod y q ltac:(lia)) as DM. fold h in DM. pose proof (Z.mod_pos_bound y q Q0) as MB.
    assert (VV : bev 256 ent = bev 2048 nums * p + h /\ checksum c (nth 0 (sha256 ent) 0) = y mod q).
    { specialize (CR ent). assert (A : bev 2048 nums * p * q = bev 2048 nums * 2048) by (rewrite <- Z.mul_assoc, QP; reflexivity). apply (Z.div_mod_unique q); [lia | lia |]. rewrite Z.mul_add_distr_l, !(Z.mul_comm q). lia. }
    destruct VV as [V1 V2]. destruct (EE h HR) as (L1 & B1 & V3). assert (EQ : en h = ent) by (apply (bev_inj 256); [lia | exact L1 | exact B1 | exact B' | rewrite V3; symmetry; exact V1]).
    exists (Z.to_nat h). subst e. cbv beta. rewrite Z2Nat.id by lia. split; [unfold x; rewrite EQ, V2; lia |]. apply in_seq. lia.
Qed.
Print Assumptions C113_last.
(** "A changed word is detected" fails for every phrase: another last word makes another valid phrase, of other entropy; for 24 words
    there are exactly 7 such words. *)
Theorem C113_refuted : forall (H : Hashes) ent nums x, hashes_ok -> sentence sha256 ent (nums ++ [x]) ->
  exists others, length others = (2 ^ (11 - length ent / 4) - 1)%nat /\ NoDup others /\
    (forall y, In y others <-> y <> x /\ exists ent', sentence sha256 ent' (nums ++ [y])) /\
    (forall y ent', In y others -> sentence sha256 ent' (nums ++ [y]) -> ent' <> ent).
Proof.
  intros H ent nums x HO S1. pose proof S1 as (EN & B & F & _). pose proof (proj1 (sentence_number H ent _ HO EN B F) S1) as [L _]. rewrite app_length in L. cbn [length] in L. apply Forall_app in F as [F _].
  destruct (C113_last H (length ent) nums HO EN) as (lasts & M & A); [| exact F |].
  { destruct EN as [X | [X | [X | [X | X]]]]; rewrite X in L |- *; cbn in L |- *; lia. }
  assert (LL : length lasts = (2 ^ (11 - length ent / 4))%nat). { apply (f_equal (@length Z)) in M. rewrite !map_length, seq_length in M. exact M. }
  assert (ND : NoDup lasts). { apply (NoDup_map_inv (fun x => x / 2 ^ Z.of_nat (length ent / 4))). rewrite M. apply FinFun.Injective_map_NoDup; [intros i j; apply Nat2Z.inj | apply seq_NoDup]. }
  assert (I : In x lasts) by (apply A; exists ent; exact S1). destruct (in_split x lasts I) as (l1 & l2 & EL). rewrite EL in ND. exists (l1 ++ l2).
  split; [rewrite <- LL, EL, !app_length; cbn [length]; lia |]. split; [exact (NoDup_remove_1 _ _ _ ND) |]. split.
  - intros y. rewrite <- A, EL, !in_app_iff. cbn [In]. pose proof (NoDup_remove_2 _ _ _ ND) as NI. rewrite in_app_iff in NI. split.
    + intros J. split; [intros ->; exact (NI J) | tauto].
    + intros (N & [J | [J | J]]); [left; exact J | subst; contradiction | right; exact J].
  - intros y ent' J S2 ->. pose proof (sentence_unique H ent _ _ S1 S2) as E. apply app_inj_tail in E as [_ ->]. exact (NoDup_remove_2 _ _ _ ND J).
Qed.
Print Assumptions C113_refuted.
(** What is detected: a changed last word with the same leading 11 - c bits (for 24 words, the same number up to the last 8 bits). *)
Theorem C113_detected : forall (H : Hashes) ent ent' nums x y, hashes_ok -> sentence sha256 ent (nums ++ [x]) -> sentence sha256 ent' (nums ++ [y]) ->
  x / 2 ^ Z.of_nat (length ent / 4) = y / 2 ^ Z.of_nat (length ent / 4) -> x = y /\ ent = ent'.
Proof.
  intros H ent ent' nums x y HO S1 S2 E. pose proof S1 as (EN & B & F & _). pose proof S2 as (EN' & B' & F' & _). pose proof (proj1 (sentence_number H ent _ HO EN B F) S1) as [L V]. pose proof (proj1 (sentence_number H ent' _ HO EN' B' F') S2) as [L' V'].
  rewrite app_length in L, L'. cbn [length] in L, L'. assert (LE : length ent' = length ent).
  { rewrite L in L'. destruct EN as [X | [X | [X | [X | X]]]]; destruct EN' as [Y | [Y | [Y | [Y | Y]]]]; rewrite X, Y in L'; cbn in L'; try discriminate; congruence. }
  rewrite LE in V'. set (c := (length ent / 4)%nat) in *. set (q := 2 ^ Z.of_nat c) in *. assert (C : (c <= 8)%nat) by (subst c; destruct EN as [-> | [-> | [-> | [-> | ->]]]]; cbv; lia).
  assert (FI : forall m, 0 <= nth 0 (sha256 m) 0 < 256). { intros m. destruct HO as (SB & _). destruct (SB m) as [B0 L0]. apply (proj1 (Forall_forall _ _) B0), nth_In. lia. }
  pose proof (checksum_range c _ C (FI ent)) as C1. pose proof (checksum_range c _ C (FI ent')) as C2. fold q in C1, C2. assert (Q0 : 0 < q) by lia.
  assert (QD : exists p, 2048 = p * q). { exists (2 ^ Z.of_nat (11 - c)). subst q. rewrite <- Z.pow_add_r by lia. replace (Z.of_nat (11 - c) + Z.of_nat c) with 11 by lia. reflexivity. }
  destruct QD as [p QP]. rewrite bev_snoc in V, V'. set (a := bev 2048 nums) in *. clearbody a. pose proof (Z.div_mod x q ltac:(lia)) as D1. pose proof (Z.div_mod y q ltac:(lia)) as D2. rewrite E in D1. pose proof (Z.mod_pos_bound x q Q0). pose proof (Z.mod_pos_bound y q Q0).
  assert (A1 : bev 256 ent = a * p + y / q). { apply (Z.div_mod_unique q _ _ (checksum c (nth 0 (sha256 ent) 0)) (x mod q)); [lia | lia |]. assert (a * 2048 = q * (a * p)) by (rewrite QP; ring). rewrite Z.mul_add_distr_l. lia. }
  assert (A2 : bev 256 ent' = a * p + y / q). { apply (Z.div_mod_unique q _ _ (checksum c (nth 0 (sha256 ent') 0)) (y mod q)); [lia | lia |]. assert (a * 2048 = q * (a * p)) by (rewrite QP; ring). rewrite Z.mul_add_distr_l. lia. }
  assert (EE : ent = ent') by (apply (bev_inj 256); [lia | congruence | exact B | exact B' | congruence]). subst ent'. split; [| reflexivity]. pose proof (sentence_unique H ent _ _ S1 S2) as X. apply app_inj_tail in X as [_ X]. exact X.
Qed.
Print Assumptions C113_detected.
(** Whatever the change, other words are other entropy. *)
Theorem C113_distinct : forall (H : Hashes) words m m' ent, hashes_ok -> word_list words -> EntropyFromMnemonic words m = Some ent -> EntropyFromMnemonic words m' = Some ent -> exists l, has_fields m l /\ has_fields m' l.
Proof.
  intros H words m m' ent HO W E E'. apply entropy_exact in E as (nums & S1 & F); [| exact HO | exact W]. apply entropy_exact in E' as (nums' & S2 & F'); [| exact HO | exact W]. rewrite <- (sentence_unique H ent _ _ S1 S2) in F'. exists (spelled words nums). auto.
Qed.
Print Assumptions C113_distinct.

(** The hypotheses are met: a list of 2048 words of three letters. *)
Definition ex_words : list bytes := map (fun i => [97 + Z.of_nat i / 256; 97 + Z.of_nat i / 16 mod 16; 97 + Z.of_nat i mod 16]) (seq 0 2048).
Example C112_words : word_list ex_words.
Proof.
  split; [reflexivity |]. split.
  - apply FinFun.Injective_map_NoDup; [| apply seq_NoDup]. intros i j E. pose proof (f_equal (fun l => nth 0 l 0) E) as E0. pose proof (f_equal (fun l => nth 1 l 0) E) as E1. pose proof (f_equal (fun l => nth 2 l 0) E) as E2. cbn [nth] in E0, E1, E2.
    pose proof (Z.div_mod (Z.of_nat i) 16 ltac:(lia)). pose proof (Z.div_mod (Z.of_nat j) 16 ltac:(lia)). pose proof (Z.div_mod (Z.of_nat i / 16) 16 ltac:(lia)). pose proof (Z.div_mod (Z.of_nat j / 16) 16 ltac:(lia)).
    pose proof (Z.div_div (Z.of_nat i) 16 16 ltac:(lia) ltac:(lia)) as DI. pose proof (Z.div_div (Z.of_nat j) 16 16 ltac:(lia) ltac:(lia)) as DJ. change (16 * 16) with 256 in DI, DJ. lia.
  - apply Forall_forall. intros w I. apply in_map_iff in I as (i & <- & I). apply in_seq in I. split; [discriminate |]. intros c J.
    pose proof (Z.mod_pos_bound (Z.of_nat i) 16 ltac:(lia)). pose proof (Z.mod_pos_bound (Z.of_nat i / 16) 16 ltac:(lia)). pose proof (Z.div_pos (Z.of_nat i) 256 ltac:(lia) ltac:(lia)).
    assert (Z.of_nat i / 256 < 8) by (apply Z.div_lt_upper_bound; lia). destruct J as [<- | [<- | [<- | []]]]; lia.
Qed.
Example C112_example : exists m text sig nums x, @generate_main toy_hashes no_unicode ex_words (repeat 7 32) = Ok (m, text, sig) /\
  @restore_main toy_hashes no_unicode ex_words m 1 (str "mainnet") = Ok (Printed (str "Base Address: " ++ text)) /\ @taken toy_hashes ex_words m (repeat 7 32) /\
  sentence (@sha256 toy_hashes) (repeat 7 32) (nums ++ [x]).
Proof.
  assert (B : bytes_ok (repeat 7 32)) by (apply Forall_forall; intros x I; apply repeat_spec in I; subst x; unfold is_byte; lia).
  destruct (C112_generate toy_hashes no_unicode go117 ex_words (repeat 7 32) toy_hashes_ok B eq_refl) as (nums & root & s & sig & S1 & _ & _ & G & _).
  destruct (C112_restore toy_hashes no_unicode go117 ex_words (repeat 7 32) _ _ _ toy_hashes_ok C112_words B eq_refl G) as [R _].
  destruct (sentence_words toy_hashes ex_words _ nums toy_hashes_ok C112_words S1) as (FW & LW & FJ). rewrite repeat_length in LW. assert (LW' : length (spelled ex_words nums) = 24%nat) by exact LW.
  assert (LN : length (spelled ex_words nums) = length nums) by apply map_length. rewrite LW' in LN.
  destruct (exists_last (l := nums) ltac:(intros X; rewrite X in LN; discriminate)) as (a & x & EN). exists (joined (spelled ex_words nums)), s, sig, a, x. split; [exact G |]. split; [exact R |]. split; [| rewrite <- EN; exact S1].
  split; [| exists nums; split; [exact S1 | exact FJ]]. pose proof (joined_count _ FW ltac:(intros X; rewrite X in LW'; discriminate)) as J. lia.
Qed.
(** White space outside ASCII separates words too: a no-break space and an ideographic space; a stray byte 160 does not. *)
Example C112_spaces : has_fields (str "abc" ++ [194; 160] ++ str "d" ++ [227; 128; 128; 32] ++ str "e" ++ [160] ++ str "f") [str "abc"; str "d"; str "e" ++ [160] ++ str "f"].
Proof. apply fields_exact. vm_compute. reflexivity. Qed.
