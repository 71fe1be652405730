(** The checksum register computes the residue of BIP-173; detection of up to three and four substitutions. *)
From Coq Require Import ZArith List Bool Lia.
From Verif.Model Require Import Base Bech32.
From Verif.Spec Require Import Bech32Spec BchSpec.
From Verif.Proofs Require Import Util ConvertBits Polymod Bech32Facts Bech32Errors Bech32Props.
Import ListNotations. Open Scope Z_scope.

(** ** The register and the residue *)
Lemma feedback_gf t : 0 <= t < 32 -> feedback t = bev (2 ^ 5) (map (gf_mul t) gen_poly) /\ grp 5 (map (gf_mul t) gen_poly).
Proof.
  intros H.
  assert (S : forallb (fun t => (feedback t =? bev (2 ^ 5) (map (gf_mul t) gen_poly)) &&
                forallb (fun d => (0 <=? d) && (d <? 32)) (map (gf_mul t) gen_poly)) (zrange 32) = true)
    by (vm_compute; reflexivity).
  apply (sweep 32 _ S) in H. apply andb_prop in H as [A B]. split; [lia |].
  apply Forall_forall. intros d Hd. eapply forallb_forall in B; [| exact Hd]. lia.
Qed.

Lemma poly_add_xors a : forall b, poly_add a b = xors a b.
Proof. induction a as [| x a IH]; intros [| y b]; cbn; congruence. Qed.

Lemma bev_xors a b : (length a <= 6)%nat -> length a = length b -> grp 5 a -> grp 5 b ->
  bev (2 ^ 5) (xors a b) = Z.lxor (bev (2 ^ 5) a) (bev (2 ^ 5) b).
Proof.
  intros L6 L Ha Hb.
  assert (Lx : length (xors a b) = length a) by (apply xors_length; auto).
  rewrite <- !reg_0_small; auto; try lia; [| apply xors_grp; auto].
  rewrite <- reg_lxor; auto; unfold in30; lia.
Qed.

Lemma residue_step_reg r v : grp 5 r -> length r = 6%nat -> 0 <= v < 32 ->
  grp 5 (residue_step r v) /\ length (residue_step r v) = 6%nat /\
  bev (2 ^ 5) (residue_step r v) = polymod_step (bev (2 ^ 5) r) v.
Proof.
  intros Hr L Hv. destruct r as [| t low]; [discriminate |]. inversion Hr as [| ? ? Ht Hlow]; subst.
  cbn in L. injection L as L. destruct (feedback_gf t ltac:(lia)) as [Ef Gf].
  assert (Ga : grp 5 (low ++ [v])) by (apply Forall_app; split; [exact Hlow | constructor; [lia | constructor]]).
  assert (La : length (low ++ [v]) = 6%nat) by (rewrite app_length, L; reflexivity).
  cbn [residue_step]. rewrite poly_add_xors. split; [apply xors_grp; auto |]. split; [rewrite xors_length; auto |].
  rewrite bev_xors by (auto; lia). rewrite <- Ef.
  assert (Bl : 0 <= bev (2 ^ 5) low < 2 ^ 25).
  { pose proof (bev_range (2 ^ 5) low ltac:(lia) Hlow) as B. unfold zlen in B. rewrite L in B.
    change ((2 ^ 5) ^ Z.of_nat 5) with (2 ^ 25) in B. exact B. }
  assert (Eb : bev (2 ^ 5) (t :: low) = t * 2 ^ 25 + bev (2 ^ 5) low).
  { rewrite bev_cons. unfold zlen. rewrite L. reflexivity. }
  rewrite step_clk; [| unfold in30; rewrite Eb; lia].
  unfold clk. rewrite Eb. rewrite Z.div_add_l, Z.div_small by lia. rewrite Z.add_0_r.
  replace ((t * 2 ^ 25 + bev (2 ^ 5) low) mod 2 ^ 25) with (bev (2 ^ 5) low)
    by (rewrite Z.add_comm, Z_mod_plus_full, Z.mod_small by lia; reflexivity).
  rewrite bev_snoc.
  assert (Ex : bev (2 ^ 5) low * 2 ^ 5 + v = Z.lxor (bev (2 ^ 5) low * 32) v).
  { change (2 ^ 5) with 32 at 2. rewrite Z.add_nocarry_lxor; auto.
    apply Z.bits_inj'. intros i Hi. rewrite Z.land_spec, Z.bits_0. change 32 with (2 ^ 5).
    rewrite <- Z.shiftl_mul_pow2 by lia. destruct (Z.lt_ge_cases i 5).
    - rewrite Z.shiftl_spec_low by lia. reflexivity.
    - destruct (Z.eq_dec v 0) as [-> | Nv]; [rewrite Z.bits_0; apply andb_false_r |].
      rewrite (Z.bits_above_log2 v i); [apply andb_false_r | lia |].
      assert (Z.log2 v < 5) by (apply Z.log2_lt_pow2; lia). lia. }
  rewrite Ex, !Z.lxor_assoc. f_equal. apply Z.lxor_comm.
Qed.

Lemma residue_reg vs : forall r, grp 5 r -> length r = 6%nat -> grp 5 vs ->
  grp 5 (fold_left residue_step vs r) /\ length (fold_left residue_step vs r) = 6%nat /\
  bev (2 ^ 5) (fold_left residue_step vs r) = reg (bev (2 ^ 5) r) vs.
Proof.
  induction vs as [| v vs IH]; intros r Hr L Hv; [cbn; auto |].
  inversion Hv; subst. destruct (residue_step_reg r v Hr L ltac:(lia)) as (G & L' & E).
  cbn [fold_left reg]. destruct (IH _ G L' H2) as (G2 & L2 & E2). split; [exact G2 |]. split; [exact L2 |].
  rewrite E2. unfold reg. cbn [fold_left]. rewrite E. reflexivity.
Qed.

Lemma residue_polymod vs : grp 5 vs -> (residue (1 :: vs) = [0; 0; 0; 0; 0; 1] <-> polymod vs = 1).
Proof.
  intros Hv. unfold residue. cbn [fold_left].
  assert (E1 : residue_step [0; 0; 0; 0; 0; 0] 1 = [0; 0; 0; 0; 0; 1]) by (vm_compute; reflexivity).
  rewrite E1.
  assert (G1 : grp 5 [0; 0; 0; 0; 0; 1]) by (repeat constructor; lia).
  destruct (residue_reg vs [0; 0; 0; 0; 0; 1] G1 eq_refl Hv) as (G & L & E).
  rewrite polymod_reg. change (bev (2 ^ 5) [0; 0; 0; 0; 0; 1]) with 1 in E. split; intros H.
  - rewrite <- E, H. reflexivity.
  - apply (bev_inj (2 ^ 5)); auto; try lia. rewrite E, H. reflexivity.
Qed.

(** ** Bits *)
Definition b2z (b : bool) : Z := if b then 1 else 0.

Lemma bits_value w v : 0 <= v < 2 ^ Z.of_nat w -> bev 2 (map b2z (bits w v)) = v.
Proof.
  revert v. induction w as [| w IH]; intros v Hv.
  - cbn in *. lia.
  - unfold bits. rewrite seq_S. rewrite rev_app_distr. cbn [rev app map Nat.add].
    fold (bits w v).
    rewrite bev_cons. rewrite Nat2Z.inj_succ, Z.pow_succ_r in Hv by lia.
    assert (Lb : zlen (map b2z (bits w v)) = Z.of_nat w)
      by (unfold zlen, bits; rewrite !map_length, rev_length, seq_length; reflexivity).
    assert (E : bits w v = bits w (v mod 2 ^ Z.of_nat w)).
    { unfold bits. apply map_ext_in. intros i Hi. apply in_rev, in_seq in Hi. rewrite Z.mod_pow2_bits_low by lia. reflexivity. }
    assert (B : 0 <= v mod 2 ^ Z.of_nat w < 2 ^ Z.of_nat w) by (apply Z.mod_pos_bound; lia).
    rewrite Lb, E, IH by exact B.
    assert (D : v / 2 ^ Z.of_nat w = b2z (Z.testbit v (Z.of_nat w))).
    { assert (T : Z.testbit v (Z.of_nat w) = Z.testbit (v / 2 ^ Z.of_nat w) 0).
      { rewrite <- Z.shiftr_div_pow2 by lia. rewrite Z.shiftr_spec by lia. f_equal. }
      rewrite T.
      assert (0 <= v / 2 ^ Z.of_nat w < 2) by (split; [apply Z.div_pos | apply Z.div_lt_upper_bound]; lia).
      destruct (Z.eq_dec (v / 2 ^ Z.of_nat w) 0) as [-> | N]; [reflexivity |].
      replace (v / 2 ^ Z.of_nat w) with 1 by lia. reflexivity. }
    rewrite <- D. pose proof (Z.div_mod v (2 ^ Z.of_nat w) ltac:(lia)). lia.
Qed.

Lemma bits_length w v : length (bits w v) = w.
Proof. unfold bits. rewrite map_length, rev_length, seq_length. reflexivity. Qed.
Lemma all_bits_length w l : length (all_bits w l) = (w * length l)%nat.
Proof. induction l as [| x l IH]; cbn; [lia |]. rewrite app_length, bits_length. unfold all_bits in IH. rewrite IH. lia. Qed.

Lemma all_bits_value w l : grp (Z.of_nat w) l -> bev 2 (map b2z (all_bits w l)) = bev (2 ^ Z.of_nat w) l.
Proof.
  induction l as [| x l IH]; intros H; [reflexivity |]. inversion H; subst.
  change (all_bits w (x :: l)) with (bits w x ++ all_bits w l). rewrite map_app, bev_app, bits_value by auto.
  rewrite IH by auto. rewrite bev_cons. f_equal. f_equal. unfold zlen. rewrite map_length, all_bits_length.
  rewrite <- Z.pow_mul_r by lia. f_equal. lia.
Qed.

Lemma b2z_inj a b : map b2z a = map b2z b -> a = b.
Proof.
  revert b. induction a as [| x a IH]; intros [| y b] H; try discriminate; auto. cbn in H. injection H as E F.
  f_equal; [destruct x, y; auto; discriminate | auto].
Qed.
Lemma b2z_range a : Forall (fun d => 0 <= d < 2) (map b2z a).
Proof. apply Forall_map. induction a as [| [] a IH]; constructor; auto; cbn; lia. Qed.

(** Regrouping in terms of values. *)
Lemma regrouped_iff data v : bytes_ok data -> grp 5 v ->
  (regrouped data v <-> exists k, 0 <= k < 5 /\ 5 * zlen v = 8 * zlen data + k /\ bev (2 ^ 5) v = bev (2 ^ 8) data * 2 ^ k).
Proof.
  intros Hd Hv.
  assert (Hd8 : grp (Z.of_nat 8) data).
  { unfold bytes_ok in Hd. eapply Forall_impl; [| exact Hd]. unfold is_byte. intros. change (2 ^ Z.of_nat 8) with 256. lia. }
  assert (Hv5 : grp (Z.of_nat 5) v) by exact Hv.
  assert (V : forall k, bev 2 (map b2z (all_bits 8 data ++ repeat false k)) = bev (2 ^ 8) data * 2 ^ Z.of_nat k).
  { intros k. rewrite map_app, bev_app, all_bits_value by exact Hd8. change (2 ^ Z.of_nat 8) with (2 ^ 8).
    assert (Z0 : bev 2 (map b2z (repeat false k)) = 0).
    { clear. induction k as [| k IH]; [reflexivity |]. cbn [repeat map b2z]. rewrite bev_cons, IH. lia. }
    rewrite Z0. unfold zlen. rewrite map_length, repeat_length. lia. }
  split.
  - intros (k & Hk & E). exists (Z.of_nat k). split; [lia |]. split.
    + apply (f_equal (@length bool)) in E. rewrite app_length, !all_bits_length, repeat_length in E. unfold zlen. lia.
    + rewrite <- V, <- E. symmetry. exact (all_bits_value 5 v Hv5).
  - intros (k & Hk & L & E). exists (Z.to_nat k). split; [lia |]. apply b2z_inj. apply (bev_inj 2); try lia.
    + rewrite !map_length, app_length, !all_bits_length, repeat_length. unfold zlen in L. lia.
    + apply b2z_range.
    + apply b2z_range.
    + rewrite V, Z2Nat.id by lia. rewrite <- E. exact (all_bits_value 5 v Hv5).
Qed.

Lemma regrouped_convert data v : bytes_ok data -> grp 5 v -> (regrouped data v <-> convertBits data 8 5 true = Ok v).
Proof.
  intros Hd Hv. rewrite regrouped_iff by auto.
  destruct (convert_pad 8 5 data) as (v' & k' & E & Hv' & Hk' & L' & V'); try lia; auto. rewrite E. split.
  - intros (k & Hk & L & V). f_equal. assert (k = k') by lia. subst k'.
    apply (bev_inj (2 ^ 5)); auto; try lia. unfold zlen in *. lia.
  - intros H. injection H as ->. exists k'. auto.
Qed.

(** ** Decode accepts exactly the BIP-173 texts *)
Lemma hrp_symbols_expand h : Forall (fun c => 33 <= c <= 126) h -> hrp_symbols h = expand h.
Proof.
  intros H. unfold hrp_symbols, expand. f_equal; [| f_equal].
  - apply map_ext. intros c. rewrite Z.shiftr_div_pow2 by lia. reflexivity.
  - apply map_ext. intros c. change 31 with (Z.ones 5). rewrite Z.land_ones by lia. reflexivity.
Qed.

Lemma symbols_grp l : symbols l <-> grp 5 l.
Proof. unfold symbols, grp. rewrite Forall_forall. reflexivity. Qed.

Lemma to_chars_map v cs : grp 5 v -> to_chars v = Ok cs -> cs = map symbol_char v.
Proof.
  revert cs. induction v as [| d v IH]; intros cs Hv E; cbn [to_chars] in E; [injection E as <-; reflexivity |].
  inversion Hv; subst.
  destruct (index charset (Z.to_nat d)) as [c | |] eqn:Ec; cbn [bind] in E; try discriminate.
  destruct (to_chars v) as [r | |] eqn:Er; cbn [bind] in E; try discriminate. injection E as <-.
  cbn [map]. f_equal; [| apply IH; auto].
  unfold index in Ec. destruct (nth_error charset (Z.to_nat d)) eqn:En; [| discriminate]. injection Ec as ->.
  unfold symbol_char. change alphabet with charset. symmetry. apply nth_error_nth. exact En.
Qed.

Lemma from_chars_map v : grp 5 v -> from_chars (map symbol_char v) = Ok v.
Proof.
  intros Hv. destruct (to_chars_ok v Hv) as (cs & E & _ & F & _). rewrite <- (to_chars_map v cs Hv E). exact F.
Qed.

Lemma fold_case_lower s : map fold_case s = map lower_byte s.
Proof. reflexivity. Qed.

Section Uni.
Context {U : Unicode}.

Lemma bech32_text_decode s hrp data : ascii_string s -> (decode s = Ok (hrp, data) <-> bech32_text s hrp data).
Proof.
  intros As. pose proof As as Aa. apply ascii_string_spec in Aa. split.
  - intros H.
    destruct (C02_lemma s hrp data (or_introl As) H) as (B & Sc & _).
    destruct (C02_alphabet_lemma s hrp data (or_introl As) H) as (Vh & _).
    destruct (decode_inv s hrp data Aa H) as (hl & cs & w & Case & Es & Nh & Hh & Hll & Fc & L6 & P & Eh & Ehl & Cv).
    assert (Lh : length hrp = length hl) by (rewrite <- Ehl, map_length; reflexivity).
    destruct (from_chars_inv cs w Fc) as (Gw & Lw & Tc & _).
    split; [exact Vh |]. split; [exact B |]. split; [exact Sc |]. split; [rewrite Lh; symmetry; exact Eh |].
    exists (firstn (length w - 6) w), (skipn (length w - 6) w).
    assert (Gf : grp 5 (firstn (length w - 6) w)) by (apply Forall_firstn'; exact Gw).
    assert (Gs : grp 5 (skipn (length w - 6) w)) by (apply Forall_skipn'; exact Gw).
    destruct (convert_5_8_5 _ _ Gf Cv) as [Bd Cd].
    split; [apply symbols_grp; exact Gf |]. split; [apply regrouped_convert; auto |].
    split; [apply symbols_grp; exact Gs |]. split; [rewrite skipn_length; lia |].
    rewrite firstn_skipn. change (map fold_case hrp) with (map lower_byte hrp). rewrite Ehl. split.
    + rewrite hrp_symbols_expand by exact Hh. apply residue_polymod; [| exact P].
      apply Forall_app. split; [apply expand_grp; exact Hh | exact Gw].
    + rewrite fold_case_lower, Es. do 2 f_equal. apply to_chars_map; auto.
  - intros (Vh & B & Sc & Eh & groups & check & Sg & Rg & Sk & L6 & R & Es).
    apply valid_hrp_spec in Vh as (Nh & Hh & Hc). apply byte_string_spec in B.
    apply symbols_grp in Sg, Sk. apply single_case_spec in Sc.
    assert (Gw : grp 5 (groups ++ check)) by (apply Forall_app; auto).
    assert (Hl : Forall (fun c => 33 <= c <= 126) (map lower_byte hrp)).
    { apply Forall_map. eapply Forall_impl; [| exact Hh]. intros c. apply lower_range. }
    rewrite (decode_shape s (map lower_byte hrp) (map symbol_char (groups ++ check)) (groups ++ check)); auto.
    + apply residue_polymod in R.
      * rewrite hrp_symbols_expand in R by exact Hl. change (map fold_case hrp) with (map lower_byte hrp) in R.
        rewrite R. cbn [Z.eqb].
        rewrite app_length, L6. replace (length groups + 6 - 6)%nat with (length groups) by lia.
        rewrite firstn_app, Nat.sub_diag, firstn_all, app_nil_r.
        apply regrouped_convert in Rg; auto. destruct (convert_8_5_8 _ _ B Rg) as [_ C]. rewrite C. cbn [bind].
        rewrite map_length, Eh. reflexivity.
      * apply Forall_app. split; [| exact Gw]. change (map fold_case hrp) with (map lower_byte hrp).
        rewrite hrp_symbols_expand by exact Hl. apply expand_grp. exact Hl.
    + rewrite to_lower_ascii, to_upper_ascii by auto. exact Sc.
    + intros E. apply map_eq_nil in E. contradiction.
    + apply from_chars_map. exact Gw.
    + rewrite app_length. lia.
Qed.

Lemma bech32_text_encode hrp data : valid_hrp hrp -> byte_string data ->
  exists s, encode hrp data = Ok s /\ bech32_text s hrp data /\ (map fold_case hrp = hrp -> map fold_case s = s).
Proof.
  intros Vh B. destruct (C01_lemma hrp data B) as [_ R].
  pose proof Vh as V2. apply valid_hrp_spec in V2 as (Nh & Hh & Hc). pose proof B as B2. apply byte_string_spec in B2.
  destruct (convert_8_5_ok data B2) as [v Ev].
  destruct (encode_spec hrp data v B2 Nh Hh Hc Ev) as (chk & cs & L6 & Gk & P & Tc & E).
  destruct (convert_8_5_8 _ _ B2 Ev) as [Gv _].
  assert (Gw : grp 5 (v ++ chk)) by (apply Forall_app; auto).
  destruct (to_chars_ok _ Gw) as (cs' & Tc' & _ & _ & Fcs). rewrite Tc in Tc'. injection Tc' as <-.
  assert (Al : ascii_only (map lower_byte hrp ++ 49 :: cs) = true).
  { apply ascii_only_Forall. apply Forall_app. split.
    - apply Forall_map. eapply Forall_impl; [| exact Hh]. cbn. intros c H. apply lower_128. lia.
    - constructor; [lia |]. eapply Forall_impl; [| exact Fcs]. cbn. lia. }
  assert (Lc : map lower_byte cs = cs).
  { rewrite <- (map_id cs) at 2. apply map_ext_in. intros c Hin. eapply Forall_forall in Fcs; [| exact Hin]. tauto. }
  eexists. split; [exact E |]. split.
  - apply bech32_text_decode; [| exact (R _ E)]. apply ascii_string_spec.
    destruct (bytes_eqb (map lower_byte hrp) hrp); [exact Al | rewrite ascii_map_upper; exact Al].
  - intros Hl. change (map lower_byte hrp = hrp) in Hl.
    rewrite (proj2 (bytes_eqb_eq (map lower_byte hrp) hrp) Hl). rewrite fold_case_lower, map_app. cbn [map].
    rewrite Lc, !Hl. reflexivity.
Qed.
End Uni.

(** ** Few errors *)
Definition nonzero (d : Z) : bool := negb (d =? 0).
Definition weight (e : list Z) : nat := length (filter nonzero e).

Lemma weight_zeros n : weight (repeat 0 n) = 0%nat.
Proof. induction n; auto. Qed.
Lemma weight_app a b : weight (a ++ b) = (weight a + weight b)%nat.
Proof. unfold weight. rewrite filter_app, app_length. reflexivity. Qed.

Lemma split_first e : e = repeat 0 (length e) \/ exists n x r, e = repeat 0 n ++ x :: r /\ x <> 0.
Proof.
  induction e as [| y e IH]; [left; reflexivity |]. destruct (Z.eq_dec y 0) as [-> | N].
  - destruct IH as [IH | (n & x & r & -> & Nx)].
    + left. cbn. rewrite IH at 1. reflexivity.
    + right. exists (S n), x, r. auto.
  - right. exists 0%nat, y, e. auto.
Qed.

(** One step of the register over zeros and one symbol. *)
Lemma reg_gap n c x r : in30 c -> 0 <= x < 32 ->
  reg c (repeat 0 n ++ x :: r) = reg (Z.lxor (clks (S n) c) x) r.
Proof.
  intros Hc Hx. rewrite reg_app, reg_zeros_clks by auto. cbn [reg fold_left].
  rewrite step_clk by (apply clks_range; auto). reflexivity.
Qed.

Lemma clks_lxor n a b : in30 a -> in30 b -> clks n (Z.lxor a b) = Z.lxor (clks n a) (clks n b).
Proof.
  intros Ha Hb. induction n as [| n IH]; auto.
  change (clk (clks n (Z.lxor a b)) = Z.lxor (clk (clks n a)) (clk (clks n b))).
  rewrite IH. apply clk_lxor; apply clks_range; auto.
Qed.
Lemma clks_add m n c : clks (m + n) c = clks m (clks n c).
Proof. induction m; auto. cbn [Nat.add]. change (clk (clks (m + n) c) = clk (clks m (clks n c))). rewrite IHm. reflexivity. Qed.
Lemma clks_zero n : clks n 0 = 0.
Proof. induction n; auto. change (clk (clks n 0) = 0). rewrite IHn. reflexivity. Qed.

(** Sets of positive numbers. *)
Inductive trie := Leaf | Node (here : bool) (l r : trie).
Fixpoint tmem (k : positive) (t : trie) : bool :=
  match t with
  | Leaf => false
  | Node h l r => match k with xH => h | xO k => tmem k l | xI k => tmem k r end
  end.
Fixpoint tadd (k : positive) (t : trie) : trie :=
  match k with
  | xH => match t with Leaf => Node true Leaf Leaf | Node _ l r => Node true l r end
  | xO k => match t with Leaf => Node false (tadd k Leaf) Leaf | Node h l r => Node h (tadd k l) r end
  | xI k => match t with Leaf => Node false Leaf (tadd k Leaf) | Node h l r => Node h l (tadd k r) end
  end.
Lemma tmem_tadd k : forall j t, tmem j (tadd k t) = (j =? k)%positive || tmem j t.
Proof.
  assert (L : forall j, tmem j Leaf = false) by (intros []; reflexivity).
  induction k as [k IH | k IH |]; intros [j | j |] [| h l r]; cbn [tadd tmem]; rewrite ?IH, ?L; try reflexivity.

Qed.

(** Membership for integers; only positive ones are stored, others count as members. *)
Definition zmem (z : Z) (t : trie) : bool := match z with Zpos p => tmem p t | _ => true end.
Definition zadd (z : Z) (t : trie) : trie := match z with Zpos p => tadd p t | _ => t end.
Lemma zmem_zadd z y t : zmem y t = true \/ y = z -> zmem y (zadd z t) = true.
Proof.
  intros H. destruct z, y; cbn in *; auto; destruct H as [H | H]; auto; try discriminate; rewrite tmem_tadd.
  - rewrite H. apply orb_true_r.
  - injection H as ->. rewrite Pos.eqb_refl. reflexivity.
Qed.
Definition zset (l : list Z) : trie := fold_right zadd Leaf l.
Lemma zset_in l z : In z l -> zmem z (zset l) = true.
Proof. induction l as [| x l IH]; intros []; cbn; apply zmem_zadd; auto. Qed.

Fixpoint all_new (l : list Z) (t : trie) : bool :=
  match l with [] => true | z :: r => negb (zmem z t) && all_new r (zadd z t) end.
Lemma all_new_sound l : forall t, all_new l t = true -> NoDup l /\ forall z, In z l -> zmem z t = false.
Proof.
  induction l as [| x l IH]; intros t H; [split; [constructor | intros ? []] |].
  cbn in H. apply andb_prop in H as [H1 H2]. apply negb_true_iff in H1. destruct (IH _ H2) as [N M]. split.
  - constructor; auto. intros Hx. apply M in Hx. rewrite zmem_zadd in Hx; auto; discriminate.
  - intros z [<- | Hz]; auto. apply M in Hz. destruct (zmem z t) eqn:E; auto. rewrite zmem_zadd in Hz; auto.
Qed.

Lemma map_inj {A B} (f : A -> B) l a b : NoDup (map f l) -> In a l -> In b l -> f a = f b -> a = b.
Proof.
  induction l as [| x l IH]; intros N Ha Hb E; [contradiction |]. cbn in N. inversion N as [| ? ? N1 N2]; subst.
  destruct Ha as [<- | Ha], Hb as [<- | Hb]; auto; exfalso; apply N1.
  - rewrite E. apply in_map; auto.
  - rewrite <- E. apply in_map; auto.
Qed.

(** The 31 multiples of a register value, without the last symbol. *)
Definition key (c : Z) : Z := c / 32.
Fixpoint orbit (n : nat) (c : Z) : list Z := match n with O => [] | S n' => key c :: orbit n' (gmul c) end.
Fixpoint orbits (n : nat) (c : Z) : list (list Z) := match n with O => [] | S n' => let c' := clk c in orbit 31 c' :: orbits n' c' end.

Lemma gmuls_succ_r n c : gmuls (S n) c = gmuls n (gmul c).
Proof. induction n; auto. change (gmul (gmuls (S n) c) = gmul (gmuls n (gmul c))). rewrite IHn. reflexivity. Qed.
Lemma orbit_spec n : forall c, orbit n c = map (fun i => key (gmuls i c)) (seq 0 n).
Proof.
  induction n as [| n IH]; intros c; [reflexivity |]. cbn [orbit seq map]. f_equal. rewrite IH, <- seq_shift, map_map.
  apply map_ext. intros i. rewrite gmuls_succ_r. reflexivity.
Qed.
Lemma orbits_spec n : forall c, orbits n c = map (fun m => orbit 31 (clks m c)) (seq 1 n).
Proof.
  induction n as [| n IH]; intros c; [reflexivity |]. cbn [orbits seq map]. f_equal. rewrite IH, <- (seq_shift n 1), map_map.
  apply map_ext. intros i. rewrite clks_succ_r. reflexivity.
Qed.

Definition pair_key (p : nat * nat) : Z := key (gmuls (snd p) (clks (fst p) 1)).
Definition pairs (n : nat) : list (nat * nat) := list_prod (seq 1 n) (seq 0 31).
Lemma orbits_pairs n : concat (orbits n 1) = map pair_key (pairs n).
Proof.
  rewrite orbits_spec. unfold pairs. generalize (seq 1 n). intros l. induction l as [| m l IH]; [reflexivity |].
  cbn [map concat list_prod]. rewrite map_app, map_map, IH, orbit_spec. reflexivity.
Qed.
Lemma in_pairs n m i : (1 <= m <= n)%nat -> (i < 31)%nat -> In (m, i) (pairs n).
Proof. intros. apply in_prod; apply in_seq; lia. Qed.

Lemma keys_distinct : all_new (concat (orbits 1022 1)) Leaf = true.
Proof. vm_compute. reflexivity. Qed.

Lemma symbol_power e : 0 <= e < 32 -> e <> 0 -> exists k, (k < 31)%nat /\ e = gmuls k 1.
Proof.
  intros He Ne.
  assert (S : forallb (fun e => (e =? 0) || existsb (fun k => e =? gmuls k 1) (seq 0 31)) (zrange 32) = true)
    by (vm_compute; reflexivity).
  apply (sweep 32 _ S) in He. apply orb_prop in He as [He | He]; [lia |].
  apply existsb_exists in He as (k & Hk & E). apply in_seq in Hk. exists k. split; lia.
Qed.

Lemma key_lxor a b : key (Z.lxor a b) = Z.lxor (key a) (key b).
Proof. unfold key. change 32 with (2 ^ 5). rewrite <- !Z.shiftr_div_pow2 by lia. apply Z.shiftr_lxor. Qed.
Lemma key_small e : 0 <= e < 32 -> key e = 0.
Proof. intros. apply Z.div_small. lia. Qed.

Lemma three_far_gen N m n x1 x2 x3 : all_new (concat (orbits N 1)) Leaf = true -> (1 <= n < m)%nat -> (m <= N)%nat ->
  0 <= x1 < 32 -> x1 <> 0 -> 0 <= x2 < 32 -> x2 <> 0 -> 0 <= x3 < 32 ->
  Z.lxor (clks m x1) (clks n x2) <> x3.
Proof.
  intros Hk Hn Hm H1 N1 H2 N2 H3 E.
  destruct (symbol_power x1 H1 N1) as (i & Hi & ->). destruct (symbol_power x2 H2 N2) as (j & Hj & ->).
  rewrite <- !gmuls_clks in E by apply in30_1.
  apply (f_equal key) in E. rewrite key_lxor, (key_small x3 H3) in E. apply Z.lxor_eq in E.
  apply all_new_sound in Hk as [D _]. rewrite orbits_pairs in D.
  assert (P : (m, i) = (n, j)).
  { apply (map_inj pair_key (pairs N) _ _ D); [apply in_pairs; lia | apply in_pairs; lia | exact E]. }
  injection P as P1 P2. lia.
Qed.
Definition three_far m n x1 x2 x3 := three_far_gen 1022 m n x1 x2 x3 keys_distinct.

(** Four errors: no multiple of one column plus another column is a multiple of a third one. *)
Definition row_ok (t : trie) (o o' : list Z) : bool := forallb (fun k => negb (zmem (Z.lxor k (hd 0 o')) t)) o.
Fixpoint rows_ok (t : trie) (os : list (list Z)) : bool :=
  match os with [] => true | o :: r => forallb (row_ok t o) r && rows_ok t r end.
Definition four_ok (n : nat) : bool := let os := orbits n 1 in rows_ok (zset (concat os)) os.

Lemma rows_ok_ordered t os : rows_ok t os = true -> ForallOrdPairs (fun o o' => row_ok t o o' = true) os.
Proof.
  induction os as [| o r IH]; intros H; [constructor |]. cbn in H. apply andb_prop in H as [A B].
  constructor; auto. apply Forall_forall. apply forallb_forall. exact A.
Qed.
Lemma ordered_map {A B} (f : A -> B) (R : B -> B -> Prop) l :
  ForallOrdPairs R (map f l) -> ForallOrdPairs (fun a b => R (f a) (f b)) l.
Proof.
  induction l as [| x l IH]; intros H; [constructor |]. inversion H; subst. constructor; auto.
  apply Forall_forall. intros y Hy. eapply Forall_forall in H2; [exact H2 | apply in_map; auto].
Qed.

Lemma four_pairs N n m : four_ok N = true -> (1 <= n <= N)%nat -> (1 <= m <= N)%nat -> n <> m ->
  let R a b := forall j l i, (j < 31)%nat -> (1 <= l <= N)%nat -> (i < 31)%nat ->
                 Z.lxor (pair_key (a, j)) (pair_key (b, 0%nat)) <> pair_key (l, i) in
  R n m \/ R m n.
Proof.
  intros H Hn Hm Nm R. unfold four_ok in H. apply rows_ok_ordered in H. rewrite orbits_pairs in H. rewrite orbits_spec in H.
  apply ordered_map in H.
  assert (K : forall a b, row_ok (zset (map pair_key (pairs N))) (orbit 31 (clks a 1)) (orbit 31 (clks b 1)) = true -> R a b).
  { intros a b Hr j l i Hj Hl Hi E. unfold row_ok in Hr. rewrite (orbit_spec 31 (clks a 1)) in Hr.
    assert (Is : In j (seq 0 31)) by (apply in_seq; lia).
    pose proof (in_map (fun i => key (gmuls i (clks a 1))) _ j Is) as Ij.
    pose proof (proj1 (forallb_forall _ _) Hr (pair_key (a, j)) Ij) as Hr2. cbv beta in Hr2. clear Hr. rename Hr2 into Hr.
    change (hd 0 (orbit 31 (clks b 1))) with (pair_key (b, 0%nat)) in Hr. rewrite E in Hr.
    rewrite zset_in in Hr; [discriminate |]. apply in_map. apply in_pairs; auto. }
  destruct (ForallOrdPairs_In H n m) as [E | [E | E]]; try (apply in_seq; lia).
  - contradiction.
  - left. apply K. exact E.
  - right. apply K. exact E.
Qed.

Lemma gmuls_mod k c : in30 c -> gmuls (k mod 31) c = gmuls k c.
Proof.
  intros Hc. rewrite (Nat.div_mod k 31) at 2 by discriminate. rewrite Nat.add_comm, gmuls_add.
  assert (U : forall q, gmuls (31 * q) c = c).
  { induction q; [reflexivity |]. replace (31 * S q)%nat with (31 + 31 * q)%nat by lia. rewrite gmuls_add, IHq. apply gmuls_31; auto. }
  rewrite U. reflexivity.
Qed.
Lemma gmuls_lxor n a b : gmuls n (Z.lxor a b) = Z.lxor (gmuls n a) (gmuls n b).
Proof.
  induction n as [| n IH]; auto. change (gmul (gmuls n (Z.lxor a b)) = Z.lxor (gmul (gmuls n a)) (gmul (gmuls n b))).
  rewrite IH. apply gmul_lxor.
Qed.

Lemma four_far_scaled N p q l a b c x : (forall j l i, (j < 31)%nat -> (1 <= l <= N)%nat -> (i < 31)%nat ->
      Z.lxor (pair_key (p, j)) (pair_key (q, 0%nat)) <> pair_key (l, i)) ->
  (1 <= l <= N)%nat -> (b < 31)%nat -> 0 <= x < 32 ->
  Z.lxor (Z.lxor (gmuls a (clks p 1)) (gmuls b (clks q 1))) (gmuls c (clks l 1)) <> x.
Proof.
  intros R Hl Hb Hx E.
  apply (f_equal (gmuls (31 - b))) in E. rewrite !gmuls_lxor, <- !gmuls_add in E.
  replace (31 - b + b)%nat with 31%nat in E by lia.
  assert (I : forall k, in30 (clks k 1)) by (intros; apply clks_range, in30_1).
  rewrite gmuls_31 in E by auto.
  rewrite <- (gmuls_mod (31 - b + a)), <- (gmuls_mod (31 - b + c)) in E by auto.
  pose proof (Nat.mod_upper_bound (31 - b + a) 31 ltac:(discriminate)) as Bj.
  pose proof (Nat.mod_upper_bound (31 - b + c) 31 ltac:(discriminate)) as Bi.
  set (j := ((31 - b + a) mod 31)%nat) in *. set (i := ((31 - b + c) mod 31)%nat) in *. clearbody i j.
  apply (f_equal key) in E. rewrite !key_lxor, (key_small (gmuls (31 - b) x)) in E by (apply gmuls_small; auto).
  apply Z.lxor_eq in E. exact (R j l i Bj Hl Bi E).
Qed.

Lemma four_far_gen N m n l x1 x2 x3 x4 : four_ok N = true -> (1 <= l < n)%nat -> (n < m <= N)%nat ->
  0 <= x1 < 32 -> x1 <> 0 -> 0 <= x2 < 32 -> x2 <> 0 -> 0 <= x3 < 32 -> x3 <> 0 -> 0 <= x4 < 32 ->
  Z.lxor (Z.lxor (clks m x1) (clks n x2)) (clks l x3) <> x4.
Proof.
  intros H Hl Hn H1 N1 H2 N2 H3 N3 H4.
  destruct (symbol_power x1 H1 N1) as (i & Hi & ->). destruct (symbol_power x2 H2 N2) as (j & Hj & ->).
  destruct (symbol_power x3 H3 N3) as (k & Hk & ->).
  rewrite <- !gmuls_clks by apply in30_1.
  destruct (four_pairs N m n H) as [R | R]; try lia.
  - apply (four_far_scaled N m n l i j k x4 R); auto; lia.
  - rewrite (Z.lxor_comm (gmuls i (clks m 1))). apply (four_far_scaled N n m l j i k x4 R); auto; lia.
Qed.

(** ** Error patterns of weight at most three or four *)
Lemma weight_cons x r : x <> 0 -> weight (x :: r) = S (weight r).
Proof. intros N. unfold weight. cbn [filter]. unfold nonzero. destruct (Z.eqb_spec x 0); [contradiction | reflexivity]. Qed.

Lemma lx30 a b : in30 a -> in30 b -> in30 (Z.lxor a b).
Proof. intros. apply lxor_range; auto; lia. Qed.
Ltac rng := repeat match goal with
  | |- in30 (Z.lxor _ _) => apply lx30
  | |- in30 (clks _ _) => apply clks_range
  | |- in30 _ => apply in30_small
  | _ => assumption
  end.

Lemma few_errors (W : nat) e : grp 5 e -> (weight e <= W)%nat -> (1 <= weight e)%nat ->
  ((W <= 3)%nat /\ (length e <= 1023)%nat \/ (W <= 4)%nat /\ (exists N, four_ok N = true /\ (length e <= S N)%nat) /\ (length e <= 1023)%nat) -> reg 0 e <> 0.
Proof.
  intros He HW H1 HL.
  assert (Cut : forall n x r, grp 5 (repeat 0 n ++ x :: r) -> 0 <= x < 32 /\ grp 5 r).
  { intros n x r G. apply Forall_app in G as [_ G]. inversion G; subst. split; auto; lia. }
  assert (Wt : forall n x r, x <> 0 -> weight (repeat 0 n ++ x :: r) = S (weight r)).
  { intros. rewrite weight_app, weight_zeros, weight_cons by auto. reflexivity. }
  assert (Ln : forall n (x : Z) r, length (repeat 0 n ++ x :: r) = (n + S (length r))%nat).
  { intros. rewrite app_length, repeat_length. reflexivity. }
  destruct (split_first e) as [Z0 | (n1 & x1 & r1 & -> & N1)]; [rewrite Z0, weight_zeros in H1; lia |].
  destruct (Cut _ _ _ He) as [X1 G1]. rewrite Wt in HW, H1 by auto. rewrite Ln in HL.
  rewrite reg_gap, clks_zero, Z.lxor_0_l by (try assumption; unfold in30; lia). clear He.
  destruct (split_first r1) as [Z1 | (n2 & x2 & r2 & -> & N2)].
  { rewrite Z1. apply reg_zeros_nonzero; [rng | assumption]. }
  destruct (Cut _ _ _ G1) as [X2 G2]. rewrite Wt in HW, H1 by auto. rewrite Ln in HL.
  rewrite reg_gap by rng. clear G1.
  destruct (split_first r2) as [Z2 | (n3 & x3 & r3 & -> & N3)].
  { rewrite Z2. apply reg_zeros_nonzero; [rng |].
    intros E. apply Z.lxor_eq in E. revert E. apply two_far; auto. lia. }
  destruct (Cut _ _ _ G2) as [X3 G3]. rewrite Wt in HW, H1 by auto. rewrite Ln in HL.
  rewrite reg_gap by rng. clear G2.
  rewrite clks_lxor, <- clks_add by rng.
  destruct (split_first r3) as [Z3 | (n4 & x4 & r4 & -> & N4)].
  { rewrite Z3. apply reg_zeros_nonzero.
    - rng.
    - intros E. apply Z.lxor_eq in E. revert E. apply three_far; auto; lia. }
  destruct (Cut _ _ _ G3) as [X4 G4]. rewrite Wt in HW, H1 by auto. rewrite Ln in HL.
  rewrite reg_gap by rng.
  rewrite !clks_lxor, <- !clks_add by rng.
  destruct HL as [[HL _] | (HL & (N & H4 & HN) & HL2)]; [lia |].
  destruct (split_first r4) as [Z4 | (n5 & x5 & r5 & -> & N5)]; [| rewrite Wt in HW by auto; lia].
  rewrite Z4. apply reg_zeros_nonzero.
  - rng.
  - intros E. apply Z.lxor_eq in E. revert E. eapply four_far_gen; eauto; lia.
Qed.

(** ** Differences of two texts *)
Fixpoint dist (a b : list Z) : nat :=
  match a, b with x :: a', y :: b' => ((if Z.eqb x y then 0 else 1) + dist a' b')%nat | _, _ => 0%nat end.

Lemma weight_xors a : forall b, length a = length b -> weight (xors a b) = dist a b.
Proof.
  induction a as [| x a IH]; intros [| y b] L; try discriminate; [reflexivity |].
  cbn [xors dist]. unfold weight. cbn [filter]. unfold nonzero at 1.
  destruct (Z.eqb_spec x y) as [-> | N].
  - rewrite Z.lxor_nilpotent. cbn [Z.eqb negb]. apply IH. cbn in L. lia.
  - destruct (Z.eqb_spec (Z.lxor x y) 0) as [E | _]; [apply Z.lxor_eq in E; contradiction |]. cbn [negb length].
    cbn [Nat.add]. f_equal. apply IH. cbn in L. lia.
Qed.
Lemma dist_0 a : forall b, length a = length b -> dist a b = 0%nat -> a = b.
Proof.
  induction a as [| x a IH]; intros [| y b] L E; try discriminate; [reflexivity |]. cbn [dist] in E.
  destruct (Z.eqb_spec x y) as [-> | N]; [| lia]. f_equal. apply IH; [cbn in L; lia | exact E].
Qed.
Lemma dist_self a : dist a a = 0%nat.
Proof. induction a; cbn [dist]; auto. rewrite Z.eqb_refl. exact IHa. Qed.
Lemma dist_map f a : forall b, (dist (map f a) (map f b) <= dist a b)%nat.
Proof.
  induction a as [| x a IH]; intros [| y b]; cbn [map dist]; try lia. specialize (IH b).
  destruct (Z.eqb_spec x y) as [-> | N]; [rewrite Z.eqb_refl; lia |]. destruct (f x =? f y); lia.
Qed.
Lemma dist_app a : forall b c d, length a = length b -> dist (a ++ c) (b ++ d) = (dist a b + dist c d)%nat.
Proof.
  induction a as [| x a IH]; intros [| y b] c d L; try discriminate; [reflexivity |]. cbn [app dist].
  rewrite IH by (cbn in L; lia). lia.
Qed.
Lemma dist_chars a : forall b w v, from_chars a = Ok w -> from_chars b = Ok v -> (dist w v <= dist a b)%nat.
Proof.
  induction a as [| x a IH]; intros [| y b] w v Hw Hv.
  - cbn in Hw. injection Hw as <-. reflexivity.
  - cbn in Hw. injection Hw as <-. cbn. lia.
  - cbn in Hv. injection Hv as <-. destruct w; cbn; lia.
  - apply from_chars_cons_inv in Hw as (d & w' & Hd & Hw & ->). apply from_chars_cons_inv in Hv as (d' & v' & Hd' & Hv & ->).
    specialize (IH b w' v' Hw Hv). cbn [dist].
    destruct (Z.eqb_spec x y) as [-> | N].
    + rewrite Hd in Hd'. injection Hd' as ->. rewrite Z.eqb_refl. lia.
    + destruct (d =? d'); lia.
Qed.

Lemma cost_gen n a : forall b k (p : nat -> bool), length a = length b ->
  (forall i, (i < length a)%nat -> p (k + i)%nat = negb (nth i a 0 =? nth i b 0)) ->
  cost n (filter p (seq k (length a))) =
  (2 * dist (firstn (n - k) a) (firstn (n - k) b) + dist (skipn (n - k) a) (skipn (n - k) b))%nat.
Proof.
  induction a as [| x a IH]; intros [| y b] k p L H; try discriminate.
  - cbn [length seq filter cost fold_right]. rewrite !firstn_nil, !skipn_nil. reflexivity.
  - cbn [length seq filter]. pose proof (H 0%nat ltac:(cbn; lia)) as H0. rewrite Nat.add_0_r in H0. cbn [nth] in H0.
    assert (H1 : forall i, (i < length a)%nat -> p (S k + i)%nat = negb (nth i a 0 =? nth i b 0)).
    { intros i Hi. replace (S k + i)%nat with (k + S i)%nat by lia. rewrite H by (cbn; lia). reflexivity. }
    specialize (IH b (S k) p ltac:(cbn in L; lia) H1). rewrite H0.
    destruct (n - k)%nat as [| m] eqn:E.
    + replace (n - S k)%nat with 0%nat in IH by lia. cbn [firstn skipn dist] in *.
      destruct (x =? y); cbn [negb]; [rewrite IH; reflexivity |]. unfold cost. cbn [fold_right]. fold (cost n (filter p (seq (S k) (length a)))).
      rewrite IH. replace (k <? n)%nat with false by (symmetry; apply Nat.ltb_ge; lia). lia.
    + replace (n - S k)%nat with m in IH by lia. cbn [firstn skipn dist] in *.
      destruct (x =? y); cbn [negb]; [rewrite IH; lia |]. unfold cost. cbn [fold_right]. fold (cost n (filter p (seq (S k) (length a)))).
      rewrite IH. replace (k <? n)%nat with true by (symmetry; apply Nat.ltb_lt; lia). lia.
Qed.

Lemma firstn_exact {A} (a b : list A) n : n = length a -> firstn n (a ++ b) = a.
Proof. intros ->. rewrite firstn_app, Nat.sub_diag, firstn_all. apply app_nil_r. Qed.
Lemma skipn_exact {A} (a b : list A) n : n = length a -> skipn n (a ++ b) = b.
Proof. intros ->. rewrite skipn_app, Nat.sub_diag, skipn_all. reflexivity. Qed.

Lemma cost_split s s' h h' b b' : length s = length s' -> length h = length h' ->
  map lower_byte s = h ++ 49 :: b -> map lower_byte s' = h' ++ 49 :: b' ->
  cost (length h) (differences s s') = (2 * dist h h' + dist b b')%nat.
Proof.
  intros L Lh Es Es'. unfold differences.
  replace (length s) with (length (map lower_byte s)) by apply map_length.
  rewrite (cost_gen (length h) (map lower_byte s) (map lower_byte s') 0).
  - rewrite Nat.sub_0_r, Es, Es'. rewrite (firstn_exact h), (skipn_exact h) by reflexivity.
    rewrite (firstn_exact h'), (skipn_exact h') by exact Lh. cbn [dist]. rewrite Z.eqb_refl. reflexivity.
  - rewrite !map_length. exact L.
  - intros i Hi. rewrite map_length in Hi. cbn [Nat.add].
    change 0 with (lower_byte 0). rewrite !map_nth. reflexivity.
Qed.

Lemma expand_inj h h' : length h = length h' -> expand h = expand h' -> h = h'.
Proof.
  intros L E. unfold expand in E.
  assert (E1 : map (fun c => Z.shiftr c 5) h = map (fun c => Z.shiftr c 5) h').
  { apply (f_equal (firstn (length h))) in E. rewrite !firstn_exact in E by (rewrite map_length; auto). exact E. }
  rewrite E1 in E. apply app_inv_head in E. injection E as E2. clear - E1 E2. revert h' E1 E2.
  induction h as [| x h IH]; intros [| y h'] E1 E2; try discriminate; [reflexivity |].
  cbn [map] in E1, E2. injection E1 as X1 E1. injection E2 as X2 E2. f_equal; [| apply IH; auto].
  rewrite Z.shiftr_div_pow2 in X1 by lia. rewrite Z.shiftr_div_pow2 in X1 by lia.
  change 31 with (Z.ones 5) in X2. rewrite !Z.land_ones in X2 by lia.
  rewrite (Z.div_mod x (2 ^ 5)), (Z.div_mod y (2 ^ 5)) by lia. congruence.
Qed.
Lemma expand_length h : length (expand h) = (2 * length h + 1)%nat.
Proof. unfold expand. rewrite !app_length, !map_length. cbn [length]. lia. Qed.
Lemma dist_expand h h' : length h = length h' -> (dist (expand h) (expand h') <= 2 * dist h h')%nat.
Proof.
  intros L. unfold expand. rewrite !dist_app by (rewrite ?map_length; auto). cbn [dist]. rewrite Z.eqb_refl.
  pose proof (dist_map (fun c => Z.shiftr c 5) h h'). pose proof (dist_map (fun c => Z.land c 31) h h'). lia.
Qed.

Lemma text_distance {U : Unicode} W s s' hrp hrp' data data' : ascii_string s -> ascii_string s' ->
  decode s = Ok (hrp, data) -> decode s' = Ok (hrp', data') -> length s = length s' -> length hrp = length hrp' ->
  differences s s' <> [] ->
  ((W <= 3)%nat /\ (length s + length hrp <= 1023)%nat \/
   (W <= 4)%nat /\ (exists N, four_ok N = true /\ (length s + length hrp <= S N)%nat) /\ (length s + length hrp <= 1023)%nat) ->
  (W < cost (length hrp) (differences s s'))%nat.
Proof.
  intros As As' D D' L Lh Ne HL. apply ascii_string_spec in As, As'.
  destruct (decode_inv s hrp data As D) as (hl & cs & w & _ & Es & _ & Hh & _ & Fc & _ & P & _ & Ehl & _).
  destruct (decode_inv s' hrp' data' As' D') as (hl' & cs' & w' & _ & Es' & _ & Hh' & _ & Fc' & _ & P' & _ & Ehl' & _).
  destruct (from_chars_inv cs w Fc) as (Gw & Lw & Tc & _). destruct (from_chars_inv cs' w' Fc') as (Gw' & Lw' & Tc' & _).
  assert (Ll : length hl = length hrp) by (rewrite <- Ehl, map_length; reflexivity).
  assert (Ll' : length hl' = length hrp) by (rewrite <- Ehl', map_length; auto).
  assert (Lc : length s = (length hrp + S (length cs))%nat).
  { rewrite <- (map_length lower_byte s), Es, app_length. cbn [length]. lia. }
  assert (Lc' : length s' = (length hrp + S (length cs'))%nat).
  { rewrite <- (map_length lower_byte s'), Es', app_length. cbn [length]. lia. }
  rewrite <- Ll. rewrite (cost_split s s' hl hl' cs cs') by (auto; lia).
  assert (Le : length (expand hl) = length (expand hl')) by (rewrite !expand_length; lia).
  assert (La : length (expand hl ++ w) = length (expand hl' ++ w')) by (rewrite !app_length; lia).
  assert (Ga : grp 5 (expand hl ++ w)) by (apply Forall_app; split; [apply expand_grp; exact Hh | exact Gw]).
  assert (Gb : grp 5 (expand hl' ++ w')) by (apply Forall_app; split; [apply expand_grp; exact Hh' | exact Gw']).
  destruct (le_lt_dec (2 * dist hl hl' + dist cs cs') W) as [Hle |]; [exfalso | assumption].
  assert (Lx : length (xors (expand hl ++ w) (expand hl' ++ w')) = (length s + length hrp)%nat).
  { rewrite xors_length by exact La. rewrite app_length, expand_length. lia. }
  assert (Wx : weight (xors (expand hl ++ w) (expand hl' ++ w')) = (dist (expand hl) (expand hl') + dist w w')%nat).
  { rewrite weight_xors by exact La. apply dist_app. exact Le. }
  pose proof (dist_expand hl hl' ltac:(lia)) as B1. pose proof (dist_chars cs cs' w w' Fc Fc') as B2.
  apply (few_errors W (xors (expand hl ++ w) (expand hl' ++ w'))).
  - apply xors_grp; auto.
  - lia.
  - rewrite Wx. destruct (dist (expand hl) (expand hl') + dist w w')%nat eqn:E; [exfalso | lia]. apply Ne.
    apply Nat.eq_add_0 in E as [E1 E2]. apply dist_0 in E1; [| exact Le]. apply dist_0 in E2; [| lia].
    apply expand_inj in E1; [| lia].
    assert (Ec : cs' = cs) by (rewrite E2 in Tc; rewrite Tc in Tc'; injection Tc' as ->; reflexivity).
    assert (Em : map lower_byte s' = map lower_byte s) by (rewrite Es, Es', E1, Ec; reflexivity).
    unfold differences.
    assert (Q : forall l : list nat, (forall j, In j l -> fold_case (nth j s 0) = fold_case (nth j s' 0)) ->
      filter (fun j => negb (fold_case (nth j s 0) =? fold_case (nth j s' 0))) l = []).
    { induction l as [| j l IH]; intros Hl; [reflexivity |]. cbn [filter]. rewrite (Hl j) by (left; reflexivity). rewrite Z.eqb_refl.
      cbn [negb]. apply IH. intros; apply Hl; right; auto. }
    apply Q. intros j Hj. apply in_seq in Hj. change (lower_byte (nth j s 0) = lower_byte (nth j s' 0)).
    rewrite <- !(map_nth lower_byte), Em. reflexivity.
  - rewrite Lx. exact HL.
  - rewrite <- polymod_diff by auto. rewrite P, P'. apply Z.lxor_nilpotent.
Qed.

Lemma four_ok_88 : four_ok 88 = true.
Proof. vm_cast_no_check (eq_refl true). Qed.

Lemma separator_place {U : Unicode} s hrp data n : ascii_string s -> decode s = Ok (hrp, data) ->
  nth n s 0 = 49 -> (forall j, (n < j < length s)%nat -> nth j s 0 <> 49) -> length hrp = n.
Proof.
  intros As D Hn Ha. destruct (C02_alphabet_lemma s hrp data (or_introl As) D) as (_ & body & -> & _ & Hb).
  destruct (Nat.lt_trichotomy (length hrp) n) as [H | [H | H]]; [exfalso | exact H | exfalso].
  - rewrite app_nth2 in Hn by lia. destruct (n - length hrp)%nat as [| k] eqn:E; [lia |]. cbn [nth] in Hn.
    destruct (le_lt_dec (length body) k) as [L | L]; [rewrite nth_overflow in Hn by exact L; discriminate |].
    assert (I : In 49 body) by (rewrite <- Hn; apply nth_In; exact L). apply Hb in I. vm_compute in I. intuition discriminate.
  - apply (Ha (length hrp)); [rewrite app_length; cbn [length]; lia |]. rewrite app_nth2, Nat.sub_diag by lia. reflexivity.
Qed.

Lemma detected {U : Unicode} W s s' hrp data : ascii_string s -> ascii_string s' ->
  decode s = Ok (hrp, data) -> length s = length s' ->
  nth (length hrp) s' 0 = 49 -> (forall j, (length hrp < j < length s)%nat -> nth j s' 0 <> 49) ->
  differences s s' <> [] -> (cost (length hrp) (differences s s') <= W)%nat ->
  ((W <= 3)%nat /\ (length s + length hrp <= 1023)%nat \/ (W <= 4)%nat /\ (length s + length hrp <= 89)%nat) ->
  forall r, decode s' <> Ok r.
Proof.
  intros As As' D L Sp No Ne C HL [hrp' data'] D'.
  assert (Lh : length hrp' = length hrp) by (apply (separator_place s' hrp' data'); auto; rewrite <- L; auto).
  apply (Nat.lt_irrefl (cost (length hrp) (differences s s'))). eapply Nat.le_lt_trans; [exact C |].
  apply (text_distance W s s' hrp hrp' data data'); auto.
  destruct HL as [HL | [H4 HL]]; [left; exact HL | right]. split; [exact H4 |]. split; [| lia].
  exists 88%nat. split; [exact four_ok_88 | exact HL].
Qed.
