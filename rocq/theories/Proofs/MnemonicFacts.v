(** Mnemonics: bits, numbers of words, checksums. *)
From Verif.Model Require Import Base Bech32 Base58 Bip32 Node Mnemonic.
From Verif.Spec Require Import NodeSpec FieldsSpec Bip39Spec.
From Verif.Proofs Require Import Util Bech32Facts Base58Facts Bip32Facts NodeFacts FieldsFacts.
Open Scope Z_scope.

(** ** Bits *)
Lemma bits_S n v : bits (S n) v = v / 2 ^ Z.of_nat n mod 2 :: bits n v.
Proof. unfold bits. rewrite seq_S, rev_app_distr. reflexivity. Qed.
Lemma bits_length n v : length (bits n v) = n.
Proof. unfold bits. rewrite map_length, rev_length, seq_length. reflexivity. Qed.
Lemma bits_binary n v : Forall (fun d => 0 <= d < 2) (bits n v).
Proof. induction n as [| n IH]; [constructor |]. rewrite bits_S. constructor; [apply Z.mod_pos_bound; lia | exact IH]. Qed.
Lemma bits_value n v : bev 2 (bits n v) = v mod 2 ^ Z.of_nat n.
Proof.
  induction n as [| n IH]; [symmetry; apply Z.mod_1_r |]. rewrite bits_S, bev_cons, IH. unfold zlen. rewrite bits_length.
  rewrite Nat2Z.inj_succ, Z.pow_succ_r by lia. rewrite (Z.mul_comm 2), Z.rem_mul_r by lia. lia.
Qed.
Lemma flat_bits_length n l : length (flat_map (bits n) l) = (n * length l)%nat.
Proof. induction l as [| x l IH]; cbn [flat_map length]; [lia |]. rewrite app_length, bits_length, IH. lia. Qed.
Lemma flat_bits_binary n l : Forall (fun d => 0 <= d < 2) (flat_map (bits n) l).
Proof. induction l as [| x l IH]; [constructor |]. cbn [flat_map]. apply Forall_app. split; [apply bits_binary | exact IH]. Qed.
Lemma flat_bits_value n l : Forall (fun x => 0 <= x < 2 ^ Z.of_nat n) l -> bev 2 (flat_map (bits n) l) = bev (2 ^ Z.of_nat n) l.
Proof.
  induction 1 as [| x l X F IH]; [reflexivity |]. cbn [flat_map]. rewrite bev_app, bev_cons, bits_value, IH, Z.mod_small by exact X.
  unfold zlen. rewrite flat_bits_length, Nat2Z.inj_mul, Z.pow_mul_r by lia. reflexivity.
Qed.
Lemma first_bits_value c f : (c <= 8)%nat -> 0 <= f < 256 -> bev 2 (firstn c (bits 8 f)) = f / 2 ^ (8 - Z.of_nat c).
Proof.
  intros C F. pose proof (firstn_skipn c (bits 8 f)) as E. apply (f_equal (bev 2)) in E. rewrite bev_app, bits_value in E. change (2 ^ Z.of_nat 8) with 256 in E.
  rewrite Z.mod_small in E by exact F. assert (B : Forall (fun d => 0 <= d < 2) (skipn c (bits 8 f))) by (apply Forall_skipn', bits_binary).
  pose proof (bev_range 2 _ ltac:(lia) B) as R. assert (L : zlen (skipn c (bits 8 f)) = 8 - Z.of_nat c) by (unfold zlen; rewrite skipn_length, bits_length; lia).
  rewrite L in E, R. apply (Z.div_unique f _ _ (bev 2 (skipn c (bits 8 f)))); lia.
Qed.

(** ** A sentence as a number *)
Definition checksum (c : nat) (first : Z) : Z := first / 2 ^ (8 - Z.of_nat c).
Lemma checksum_range c f : (c <= 8)%nat -> 0 <= f < 256 -> 0 <= checksum c f < 2 ^ Z.of_nat c.
Proof.
  intros C F. unfold checksum. split; [apply Z.div_pos; lia |]. apply Z.div_lt_upper_bound; [lia |]. rewrite <- Z.pow_add_r by lia.
  replace (8 - Z.of_nat c + Z.of_nat c) with 8 by lia. change (2 ^ 8) with 256. lia.
Qed.
Lemma sentence_number (H : Hashes) ent nums : hashes_ok -> entropy_length (length ent) -> Forall (fun b => 0 <= b < 256) ent -> Forall (fun i => 0 <= i < 2048) nums ->
  (sentence sha256 ent nums <->
   (11 * length nums = 8 * length ent + length ent / 4)%nat /\
   bev 2048 nums = bev 256 ent * 2 ^ Z.of_nat (length ent / 4) + checksum (length ent / 4) (nth 0 (sha256 ent) 0)).
Proof.
  intros HO LE BE NU. destruct HO as (SH & _). destruct (SH ent) as [SB SL]. set (c := (length ent / 4)%nat).
  assert (C : (c <= 8)%nat) by (subst c; destruct LE as [-> | [-> | [-> | [-> | ->]]]]; cbv; lia).
  destruct (sha256 ent) as [| f r] eqn:ES; [discriminate |]. inversion SB as [| ? ? F _]; subst. cbn [nth].
  assert (FB : firstn c (flat_map (bits 8) (f :: r)) = firstn c (bits 8 f)).
  { cbn [flat_map]. rewrite firstn_app, bits_length. replace (c - 8)%nat with 0%nat by lia. rewrite firstn_O, app_nil_r. reflexivity. }
  assert (LF : length (firstn c (bits 8 f)) = c) by (rewrite firstn_length, bits_length; lia).
  assert (V1 : bev 2 (flat_map (bits 11) nums) = bev 2048 nums) by (apply flat_bits_value; exact NU).
  assert (V2 : bev 2 (flat_map (bits 8) ent ++ firstn c (bits 8 f)) = bev 256 ent * 2 ^ Z.of_nat c + checksum c f).
  { rewrite bev_app, first_bits_value by assumption. unfold zlen. rewrite LF. f_equal. f_equal. apply flat_bits_value. exact BE. }
  unfold sentence. rewrite ES. fold c. rewrite FB. split.
  - intros (_ & _ & _ & E). split.
    + apply (f_equal (@length Z)) in E. rewrite app_length, !flat_bits_length, LF in E. exact E.
    + rewrite <- V1, <- V2, E. reflexivity.
  - intros [L E]. split; [exact LE |]. split; [exact BE |]. split; [exact NU |]. apply (bev_inj 2); [lia | | apply flat_bits_binary | | rewrite V1, V2; exact E].
    + rewrite app_length, !flat_bits_length, LF. exact L.
    + apply Forall_app. split; [apply flat_bits_binary | apply Forall_firstn', bits_binary].
Qed.

(** ** addChecksum *)
Lemma add_bits_linear n : forall i f v, add_bits n i f v = v * 2 ^ Z.of_nat n + add_bits n i f 0.
Proof.
  assert (L : forall w, Z.lor (w * 2) 1 = w * 2 + 1) by (intros w; apply (lor_add w 1 1); lia).
  induction n as [| n IH]; intros i f v; [cbn; lia |]. cbn [add_bits]. cbv zeta. rewrite Nat2Z.inj_succ, Z.pow_succ_r by lia.
  destruct (0 <? Z.land f (Z.shiftl 1 (7 - i))).
  - rewrite (L v). change (Z.lor (0 * 2) 1) with 1. rewrite (IH _ _ (v * 2 + 1)), (IH _ _ 1). ring.
  - change (0 * 2) with 0. rewrite (IH _ _ (v * 2)). ring.
Qed.
Lemma add_bits_check : forallb (fun c => forallb (fun f => add_bits c 0 (Z.of_nat f) 0 =? checksum c (Z.of_nat f)) (seq 0 256)) (seq 0 9) = true.
Proof. vm_compute. reflexivity. Qed.
Lemma add_bits_eq c f v : (c <= 8)%nat -> 0 <= f < 256 -> add_bits c 0 f v = v * 2 ^ Z.of_nat c + checksum c f.
Proof.
  intros C F. rewrite add_bits_linear. f_equal. pose proof add_bits_check as K. rewrite forallb_forall in K. specialize (K c ltac:(apply in_seq; lia)). cbv beta in K.
  rewrite forallb_forall in K. specialize (K (Z.to_nat f) ltac:(apply in_seq; lia)). cbv beta in K. rewrite Z2Nat.id in K by lia. apply Z.eqb_eq in K. exact K.
Qed.

(** ** Words and numbers *)
Fixpoint numbers (n : nat) (v : Z) : list Z := match n with O => [] | S n => numbers n (v / 2048) ++ [v mod 2048] end.
Lemma numbers_length n : forall v, length (numbers n v) = n.
Proof. induction n as [| n IH]; intros v; [reflexivity |]. cbn [numbers]. rewrite app_length, IH. cbn. lia. Qed.
Lemma numbers_range n : forall v, Forall (fun i => 0 <= i < 2048) (numbers n v).
Proof. induction n as [| n IH]; intros v; [constructor |]. cbn [numbers]. apply Forall_app. split; [apply IH |]. constructor; [apply Z.mod_pos_bound; lia | constructor]. Qed.
Lemma numbers_value n : forall v, bev 2048 (numbers n v) = v mod 2048 ^ Z.of_nat n.
Proof.
  induction n as [| n IH]; intros v; [symmetry; apply Z.mod_1_r |]. cbn [numbers]. rewrite bev_snoc, IH. rewrite Nat2Z.inj_succ, Z.pow_succ_r by lia.
  rewrite Z.rem_mul_r by lia. lia.
Qed.
Lemma bev_zeros' b n l : bev b (repeat 0 n ++ l) = bev b l.
Proof. rewrite bev_app. replace (bev b (repeat 0 n)) with 0; [lia |]. induction n as [| n IH]; [reflexivity |]. cbn [repeat]. rewrite bev_cons, <- IH. lia. Qed.
Lemma word_number v : be_value 256 (padByteSlice (Base58.digits 256 (Z.land v 2047)) 2) = v mod 2048.
Proof.
  change 2047 with (Z.ones 11). rewrite Z.land_ones by lia. change (2 ^ 11) with 2048. pose proof (Z.mod_pos_bound v 2048 ltac:(lia)).
  change (be_value 256) with (bev 256). unfold padByteSlice. rewrite bev_zeros'. destruct (Base58Facts.digits_spec 256 (v mod 2048) ltac:(lia) ltac:(lia)) as (_ & E & _). exact E.
Qed.
Lemma take_words_eq words n : forall v acc, take_words words n v acc = spelled words (numbers n v) ++ acc.
Proof.
  induction n as [| n IH]; intros v acc; [reflexivity |]. cbn [take_words numbers]. rewrite IH, word_number. unfold spelled. rewrite map_app, <- app_assoc. reflexivity.
Qed.

Lemma index_word_nth l : NoDup l -> forall i k, (i < length l)%nat -> index_word l (nth i l []) k = Some (k + Z.of_nat i).
Proof.
  induction 1 as [| x l N D IH]; intros i k L; [cbn in L; lia |]. destruct i as [| i]; cbn [nth index_word].
  - rewrite bytes_eqb_refl. f_equal. lia.
  - cbn [length] in L. destruct (bytes_eqb x (nth i l [])) eqn:E; [apply bytes_eqb_eq in E; subst x; exfalso; apply N, nth_In; lia |].
    rewrite IH by lia. f_equal. lia.
Qed.
Lemma index_word_some l w : forall k i, index_word l w k = Some i -> k <= i < k + zlen l /\ nth (Z.to_nat (i - k)) l [] = w.
Proof.
  induction l as [| x l IH]; intros k i E; [discriminate |]. cbn [index_word] in E. rewrite zlen_cons. destruct (bytes_eqb x w) eqn:B.
  - injection E as <-. pose proof (zlen_nonneg l). split; [lia |]. rewrite Z.sub_diag. cbn. apply bytes_eqb_eq. exact B.
  - apply IH in E as [R N]. split; [lia |]. replace (Z.to_nat (i - k)) with (S (Z.to_nat (i - (k + 1)))) by lia. exact N.
Qed.
Lemma gather_spelled words nums : word_list words -> Forall (fun i => 0 <= i < 2048) nums -> forall b,
  gather words (spelled words nums) b = Some (b * 2048 ^ zlen nums + bev 2048 nums).
Proof.
  intros (LW & ND & _) F. induction F as [| i nums I F IH]; intros b; [unfold zlen; cbn; f_equal; lia |]. cbn [spelled map gather].
  cbn beta in I. rewrite index_word_nth by (try exact ND; unfold bytes in *; rewrite LW; lia). cbn [Z.add]. rewrite Z2Nat.id by lia.
  pose proof (lor_add b i 11 ltac:(lia) ltac:(change (2 ^ 11) with 2048; lia)) as LA. change (2 ^ 11) with 2048 in LA. rewrite LA. fold (spelled words nums). rewrite IH.
  f_equal. rewrite zlen_cons, Z.pow_add_r, bev_cons, Z.pow_1_r by (try lia; apply zlen_nonneg). ring.
Qed.
Lemma gather_some words l : word_list words -> forall b x, gather words l b = Some x -> exists nums, Forall (fun i => 0 <= i < 2048) nums /\ l = spelled words nums.
Proof.
  intros (LW & ND & _). induction l as [| w l IH]; intros b x E; [exists []; split; [constructor | reflexivity] |]. cbn [gather] in E.
  destruct (index_word words w 0) as [i |] eqn:I; [| discriminate]. apply IH in E as (nums & F & ->). apply index_word_some in I as [R N]. unfold zlen, bytes in R. rewrite LW in R.
  exists (i :: nums). split; [constructor; [lia | exact F] |]. rewrite Z.sub_0_r in N. unfold spelled; cbn [map]. f_equal. symmetry. exact N.
Qed.
Lemma spelled_inj words a b : word_list words -> Forall (fun i => 0 <= i < 2048) a -> Forall (fun i => 0 <= i < 2048) b -> spelled words a = spelled words b -> a = b.
Proof.
  intros (LW & ND & _) FA. revert b. induction FA as [| i a I FA IH]; intros b FB E; destruct b as [| j b]; try reflexivity; try discriminate.
  cbn [spelled map] in E. inversion FB as [| ? ? J FB']; subst. pose proof (f_equal (hd []) E) as E1. pose proof (f_equal (@tl _) E) as E2. cbn [hd tl] in E1, E2. f_equal; [| apply IH; assumption].
  apply (proj1 (NoDup_nth words []) ND) in E1; lia.
Qed.

(** ** Texts *)
Lemma spelled_words words nums : word_list words -> Forall (fun i => 0 <= i < 2048) nums -> Forall word (spelled words nums).
Proof.
  intros (LW & _ & W) F. induction F as [| i nums I F IH]; [constructor |]. cbn [spelled map]. constructor; [| exact IH].
  apply (proj1 (Forall_forall _ _) W). apply nth_In. lia.
Qed.
Lemma fields_joined l : Forall word l -> fields (joined l) = l.
Proof.
  induction 1 as [| w l W F IH]; [reflexivity |]. destruct l as [| x l]; [apply fields_word_end; exact W |].
  change (joined (w :: x :: l)) with (w ++ [32] ++ joined (x :: l)). rewrite fields_word_gap; [rewrite IH; reflexivity | exact W |].
  split; [discriminate |]. intros c [<- | []]. left. reflexivity.
Qed.
Lemma join_space_eq l : join_space l = joined l.
Proof. reflexivity. Qed.
Lemma split_spaces_count s : length (split_spaces s) = S (count_occ Z.eq_dec s 32).
Proof.
  induction s as [| c s IH]; [reflexivity |]. cbn [split_spaces count_occ]. destruct (Z.eq_dec c 32) as [-> | N].
  - cbn [Z.eqb Pos.eqb length]. rewrite IH. reflexivity.
  - rewrite (proj2 (Z.eqb_neq c 32) N). destruct (split_spaces s); [discriminate |]. cbn [length] in *. exact IH.
Qed.
Lemma word_count w : word w -> count_occ Z.eq_dec w 32 = 0%nat.
Proof. intros [_ W]. apply count_occ_not_In. intros I. apply W in I. lia. Qed.
Lemma joined_count l : Forall word l -> l <> [] -> S (count_occ Z.eq_dec (joined l) 32) = length l.
Proof.
  induction 1 as [| w l W F IH]; intros N; [contradiction |]. destruct l as [| x l]; [cbn [joined length]; rewrite word_count by exact W; reflexivity |].
  change (joined (w :: x :: l)) with (w ++ 32 :: joined (x :: l)). rewrite count_occ_app, (word_count w W). cbn [count_occ]. destruct (Z.eq_dec 32 32) as [_ | Q]; [| contradiction].
  specialize (IH ltac:(discriminate)). cbn [length] in *. lia.
Qed.

(** ** Padding *)
Lemma no_lead_short b l n : 1 < b -> in_base b l -> no_lead l -> bev b l < b ^ Z.of_nat n -> (length l <= n)%nat.
Proof.
  intros B F N V. destruct l as [| x l]; [cbn; lia |]. inversion F as [| ? ? X FL]; subst. rewrite bev_cons in V. pose proof (bev_range b l ltac:(lia) FL) as R.
  assert (X1 : 1 <= x). { cbn in N. destruct (Z.eq_dec x 0); [subst; contradiction | lia]. }
  destruct (Nat.le_gt_cases (length (x :: l)) n) as [? | G]; [assumption |]. exfalso. cbn [length] in G.
  assert (M : b ^ Z.of_nat n <= b ^ zlen l) by (apply Z.pow_le_mono_r; unfold zlen; lia). nia.
Qed.
Lemma pad_digits v n : 0 <= v < 256 ^ Z.of_nat n ->
  length (padByteSlice (Base58.digits 256 v) n) = n /\ bytes_ok (padByteSlice (Base58.digits 256 v) n) /\ bev 256 (padByteSlice (Base58.digits 256 v) n) = v.
Proof.
  intros R. destruct (Base58Facts.digits_spec 256 v ltac:(lia) ltac:(lia)) as (B & V & N). pose proof (no_lead_short 256 _ n ltac:(lia) B N ltac:(rewrite V; lia)) as L.
  unfold padByteSlice. split; [rewrite app_length, repeat_length; lia |]. split; [| rewrite bev_zeros'; exact V].
  apply Forall_app. split; [| exact B]. apply Forall_forall. intros x I. apply repeat_spec in I. subst x. unfold is_byte; lia.
Qed.

(** ** The two directions *)
Lemma word_counts n k : entropy_length n -> (11 * k = 8 * n + n / 4)%nat ->
  checksum_mask (Z.of_nat k) = Some (2 ^ Z.of_nat (n / 4) - 1) /\ checksum_shift (Z.of_nat k) = 2 ^ (8 - Z.of_nat (n / 4)) /\ (k / 3 * 4 = n)%nat /\
  (n / 4 <= 8)%nat /\ (0 < k)%nat.
Proof.
  intros [-> | [-> | [-> | [-> | ->]]]] E; cbn in E;
    [assert (k = 12%nat) by lia | assert (k = 15%nat) by lia | assert (k = 18%nat) by lia | assert (k = 21%nat) by lia | assert (k = 24%nat) by lia]; subst k; cbv; repeat split; lia.
Qed.
Lemma mask_counts k mask : checksum_mask (Z.of_nat k) = Some mask ->
  exists n, entropy_length n /\ (11 * k = 8 * n + n / 4)%nat.
Proof.
  unfold checksum_mask, entropy_length. intros E.
  destruct (Z.eqb_spec (Z.of_nat k) 12); [exists 16%nat; split; [auto | cbn; lia] |]. destruct (Z.eqb_spec (Z.of_nat k) 15); [exists 20%nat; split; [auto | cbn; lia] |].
  destruct (Z.eqb_spec (Z.of_nat k) 18); [exists 24%nat; split; [auto | cbn; lia] |]. destruct (Z.eqb_spec (Z.of_nat k) 21); [exists 28%nat; split; [auto | cbn; lia] |].
  destruct (Z.eqb_spec (Z.of_nat k) 24); [exists 32%nat; split; [auto 10 | cbn; lia] |]. discriminate.
Qed.
Lemma number_bound n k : (11 * k = 8 * n + n / 4)%nat -> 2048 ^ Z.of_nat k = 256 ^ Z.of_nat n * 2 ^ Z.of_nat (n / 4).
Proof.
  intros E. change 2048 with (2 ^ 11). change 256 with (2 ^ 8). rewrite <- !Z.pow_mul_r, <- Z.pow_add_r by lia. f_equal. lia.
Qed.
Lemma land_mask b c : Z.land b (2 ^ Z.of_nat c - 1) = b mod 2 ^ Z.of_nat c.
Proof. rewrite <- Z.land_ones by lia. f_equal. rewrite Z.ones_equiv. lia. Qed.
Lemma sentence_unique (H : Hashes) ent a b : sentence sha256 ent a -> sentence sha256 ent b -> a = b.
Proof.
  intros (_ & _ & FA & EA) (_ & _ & FB & EB). rewrite <- EB in EA. clear EB. assert (L : length a = length b).
  { apply (f_equal (@length Z)) in EA. rewrite !flat_bits_length in EA. lia. }
  apply (bev_inj 2048); [lia | exact L | exact FA | exact FB |]. apply (f_equal (bev 2)) in EA. rewrite !flat_bits_value in EA by assumption. exact EA.
Qed.

Lemma entropy_fields (H : Hashes) words m ent : hashes_ok -> word_list words ->
  (EntropyFromMnemonic words m = Some ent <-> exists nums, sentence sha256 ent nums /\ fields m = spelled words nums).
Proof.
  intros HO W. unfold EntropyFromMnemonic. set (l := fields m). clearbody l. cbv zeta. unfold zlen. split.
  - destruct (checksum_mask (Z.of_nat (length l))) as [mask |] eqn:M; [| discriminate]. destruct (mask_counts _ _ M) as (n & EN & K). destruct (word_counts n _ EN K) as (M' & S' & P & C & _).
    rewrite M' in M. assert (M2 : mask = 2 ^ Z.of_nat (n / 4) - 1) by congruence. clear M. subst mask. destruct (gather words l 0) as [b |] eqn:G; [| discriminate]. destruct (gather_some words l W 0 b G) as (nums & F & ->).
    rewrite (gather_spelled words nums W F 0) in G. rewrite Z.mul_0_l, Z.add_0_l in G. assert (G' : b = bev 2048 nums) by congruence. clear G. subst b. rewrite P, S', land_mask.
    assert (LN : length (spelled words nums) = length nums) by apply map_length. assert (K2 : (11 * length nums = 8 * n + n / 4)%nat) by (rewrite <- LN; exact K). clear K. rename K2 into K.
    pose proof (bev_range 2048 nums ltac:(lia) F) as R. unfold zlen in R. rewrite (number_bound n _ K) in R. set (b := bev 2048 nums) in *.
    replace (2 ^ Z.of_nat (n / 4) - 1 + 1) with (2 ^ Z.of_nat (n / 4)) by lia. set (q := 2 ^ Z.of_nat (n / 4)) in *. assert (Q : 0 < q) by (subst q; lia).
    destruct (pad_digits (b / q) n) as (L1 & B1 & V1). { split; [apply Z.div_pos; lia |]. apply Z.div_lt_upper_bound; lia. }
    set (e := padByteSlice (Base58.digits 256 (b / q)) n) in *. clearbody e. destruct (Z.eqb_spec (b mod q) (nth 0 (sha256 e) 0 / 2 ^ (8 - Z.of_nat (n / 4)))) as [E | _]; [| discriminate].
    intros X. injection X as <-. exists nums. split; [| reflexivity]. apply sentence_number; [exact HO | rewrite L1; exact EN | exact B1 | exact F |]. rewrite L1. split; [exact K |].
    fold b q. rewrite V1. unfold checksum. rewrite <- E. rewrite (Z.mul_comm (b / q)). apply Z.div_mod. lia.
  - intros (nums & S1 & ->). pose proof S1 as (EN & BE & F & _). apply (sentence_number H ent nums HO EN BE F) in S1 as [K V].
    assert (LN : @length bytes (spelled words nums) = length nums) by apply map_length. rewrite LN. destruct (word_counts _ _ EN K) as (M & SH & P & C & _). rewrite M, (gather_spelled words nums W F 0), SH, P, Z.mul_0_l, Z.add_0_l, land_mask.
    replace (2 ^ Z.of_nat (length ent / 4) - 1 + 1) with (2 ^ Z.of_nat (length ent / 4)) by lia.
    assert (FI : 0 <= nth 0 (sha256 ent) 0 < 256). { destruct HO as (SB & _). destruct (SB ent) as [B0 L0]. apply (proj1 (Forall_forall _ _) B0), nth_In. lia. }
    pose proof (checksum_range (length ent / 4) _ C FI) as CR. unfold checksum in V, CR. set (k := nth 0 (sha256 ent) 0 / 2 ^ (8 - Z.of_nat (length ent / 4))) in *. set (q := 2 ^ Z.of_nat (length ent / 4)) in *.
    assert (D : bev 2048 nums / q = bev 256 ent) by (symmetry; apply (Z.div_unique _ _ _ k); lia). assert (MO : bev 2048 nums mod q = k) by (symmetry; apply (Z.mod_unique _ _ (bev 256 ent)); lia).
    rewrite D, MO. pose proof (bev_range 256 ent ltac:(lia) BE) as R. unfold zlen in R. destruct (pad_digits (bev 256 ent) (length ent) R) as (L1 & B1 & V1).
    assert (E : padByteSlice (Base58.digits 256 (bev 256 ent)) (length ent) = ent) by (apply (bev_inj 256); [lia | exact L1 | exact B1 | exact BE | exact V1]).
    rewrite E. fold k. rewrite Z.eqb_refl. reflexivity.
Qed.
Lemma entropy_exact (H : Hashes) words m ent : hashes_ok -> word_list words ->
  (EntropyFromMnemonic words m = Some ent <-> exists nums, sentence sha256 ent nums /\ has_fields m (spelled words nums)).
Proof.
  intros HO W. rewrite (entropy_fields H words m ent HO W). split; intros (nums & S1 & F); exists nums; (split; [exact S1 |]); apply fields_exact; exact F.
Qed.
Lemma mnemonic_exact (H : Hashes) words m ent : hashes_ok -> bytes_ok ent ->
  (NewMnemonic words ent = Some m <-> exists nums, sentence sha256 ent nums /\ m = joined (spelled words nums)).
Proof.
  intros HO B. assert (X : entropy_length (length ent) ->
    exists nums, sentence sha256 ent nums /\ NewMnemonic words ent = Some (joined (spelled words nums))).
  { intros EN. unfold NewMnemonic. set (k := ((8 * length ent + length ent / 4) / 11)%nat).
    assert (K : (11 * k = 8 * length ent + length ent / 4)%nat) by (subst k; destruct EN as [-> | [-> | [-> | [-> | ->]]]]; reflexivity).
    assert (T : negb (zlen ent * 8 mod 32 =? 0) || (zlen ent * 8 <? 128) || (256 <? zlen ent * 8) = false /\ Z.to_nat ((zlen ent * 8 + zlen ent * 8 / 32) / 11) = k).
    { subst k. unfold zlen. destruct EN as [-> | [-> | [-> | [-> | ->]]]]; split; reflexivity. }
    destruct T as [T1 T2]. cbv zeta. rewrite T1, T2. destruct (word_counts _ _ EN K) as (_ & _ & _ & C & _).
    assert (FI : 0 <= nth 0 (sha256 ent) 0 < 256). { destruct HO as (SB & _). destruct (SB ent) as [B0 L0]. apply (proj1 (Forall_forall _ _) B0), nth_In. lia. }
    pose proof (checksum_range (length ent / 4) _ C FI) as CR. pose proof (bev_range 256 ent ltac:(lia) B) as R. unfold zlen in R.
    unfold addChecksum. change (be_value 256 ent) with (bev 256 ent). rewrite add_bits_eq by assumption. set (v := bev 256 ent * 2 ^ Z.of_nat (length ent / 4) + checksum (length ent / 4) (nth 0 (sha256 ent) 0)) in *.
    assert (V0 : 0 <= v < 2048 ^ Z.of_nat k). { rewrite (number_bound _ _ K). subst v. nia. }
    change (be_value 256 (Base58.digits 256 v)) with (bev 256 (Base58.digits 256 v)). destruct (Base58Facts.digits_spec 256 v ltac:(lia) ltac:(lia)) as (_ & Vd & _). rewrite Vd.
    exists (numbers k v). rewrite take_words_eq, app_nil_r, join_space_eq. split; [| reflexivity].
    apply sentence_number; [exact HO | exact EN | exact B | apply numbers_range |]. rewrite numbers_length. split; [exact K |]. rewrite numbers_value, Z.mod_small by exact V0. reflexivity. }
  split.
  - intros E. assert (EN : entropy_length (length ent)).
    { unfold NewMnemonic in E. cbv zeta in E. destruct (negb (zlen ent * 8 mod 32 =? 0) || (zlen ent * 8 <? 128) || (256 <? zlen ent * 8)) eqn:T; [discriminate |].
      apply Bool.orb_false_iff in T as [T T3]. apply Bool.orb_false_iff in T as [T1 T2]. apply Bool.negb_false_iff, Z.eqb_eq in T1. apply Z.ltb_ge in T2, T3. unfold zlen in *.
      pose proof (Z.div_mod (Z.of_nat (length ent) * 8) 32 ltac:(lia)) as DM. rewrite T1 in DM. unfold entropy_length. lia. }
    destruct (X EN) as (nums & S1 & E1). exists nums. split; [exact S1 |]. rewrite E in E1. injection E1 as ->. reflexivity.
  - intros (nums & S1 & ->). destruct (X (proj1 S1)) as (nums' & S2 & ->). rewrite (sentence_unique H ent nums nums' S1 S2). reflexivity.
Qed.
