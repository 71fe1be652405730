(** The bech32 lemmas in the vocabulary of Spec/Bech32Spec. *)
From Verif.Model Require Import Base Bech32.
From Verif.Spec Require Import Bech32Spec.
From Verif.Proofs Require Import Util ConvertBits Polymod Bech32Facts Bech32Errors.

Lemma single_case_spec s : single_case s <-> (map lower_byte s = s \/ map upper_byte s = s).
Proof.
  assert (M : forall (f : Z -> Z), map f s = s <-> forall c, In c s -> f c = c).
  { intros f. split.
    - intros E c Hc. induction s as [| x s IH]; [contradiction |]. cbn in E. injection E as E1 E2.
      destruct Hc as [<- | Hc]; auto.
    - intros H. rewrite <- (map_id s) at 2. apply map_ext_in. exact H. }
  unfold single_case, is_upper, is_lower. rewrite !M.
  assert (L : forall c, lower_byte c = c <-> ~ 65 <= c <= 90) by (intros c; case_tac).
  assert (U : forall c, upper_byte c = c <-> ~ 97 <= c <= 122) by (intros c; case_tac).
  setoid_rewrite L. setoid_rewrite U. reflexivity.
Qed.

Lemma ascii_string_spec s : ascii_string s <-> ascii_only s = true.
Proof. rewrite ascii_only_Forall, Forall_forall. reflexivity. Qed.

Lemma byte_string_spec s : byte_string s <-> bytes_ok s.
Proof.
  unfold byte_string, bytes_ok, is_byte. rewrite Forall_forall. split; intros H c Hc; apply H in Hc; lia.
Qed.

Lemma valid_hrp_spec h : valid_hrp h <->
  h <> [] /\ Forall (fun c => 33 <= c <= 126) h /\ (map upper_byte h = h \/ map lower_byte h = h).
Proof. unfold valid_hrp. rewrite single_case_spec, Forall_forall. tauto. Qed.

Lemma data_char_spec c : data_char c <-> exists d, index_of charset (lower_byte c) = Some d.
Proof.
  unfold data_char. change fold_case with lower_byte. change alphabet with charset.
  generalize (lower_byte c) charset. clear. intros x l. induction l as [| y l IH]; cbn.
  - split; [intros [] | intros [d H]; discriminate].
  - destruct (Z.eqb_spec y x) as [-> | N].
    + split; eauto.
    + split.
      * intros [-> | I]; [contradiction |]. apply IH in I as [d ->]. eauto.
      * intros [d H]. right. apply IH. destruct (index_of l x); [eauto | discriminate].
Qed.

Lemma single_case_bool s : single_case s <->
  bytes_eqb (map lower_byte s) s || bytes_eqb (map upper_byte s) s = true.
Proof. rewrite single_case_spec, orb_true_iff, !bytes_eqb_eq. reflexivity. Qed.

Section Uni.
Context {U : Unicode}.

Lemma encode_accepts hrp data s : encode hrp data = Ok s -> valid_hrp hrp.
Proof.
  intros H. unfold encode in H. apply bind_ok in H as (v & Ev & H).
  destruct (length hrp <? 1)%nat eqn:L; [discriminate |]. apply Nat.ltb_ge in L.
  destruct (hrp_chars_ok hrp) eqn:C; cbn [negb] in H; [| discriminate].
  apply hrp_chars_Forall in C. pose proof (hrp_ascii _ C) as A.
  rewrite to_upper_ascii, to_lower_ascii in H by auto.
  destruct (negb (bytes_eqb (map upper_byte hrp) hrp) && negb (bytes_eqb (map lower_byte hrp) hrp)) eqn:M;
    [discriminate |].
  apply valid_hrp_spec. repeat split; auto.
  - intros ->. cbn in L. lia.
  - apply andb_false_iff in M. rewrite !negb_false_iff, !bytes_eqb_eq in M. exact M.
Qed.

Lemma C01_lemma hrp data : byte_string data ->
  (valid_hrp hrp <-> exists s, encode hrp data = Ok s) /\
  (forall s, encode hrp data = Ok s -> decode s = Ok (hrp, data)).
Proof.
  intros B. apply byte_string_spec in B.
  assert (R : valid_hrp hrp -> exists s, encode hrp data = Ok s /\ decode s = Ok (hrp, data)).
  { intros V. apply valid_hrp_spec in V as (N & F & C). apply bech32_roundtrip; auto. }
  split; [split |].
  - intros V. destruct (R V) as (s & E & _). eauto.
  - intros [s E]. eapply encode_accepts; eauto.
  - intros s E. destruct (R (encode_accepts _ _ _ E)) as (s' & E' & D). congruence.
Qed.


Lemma from_chars_nth cs : forall w, from_chars cs = Ok w ->
  forall k, (k < length cs)%nat -> index_of charset (nth k cs 0) = Some (nth k w 0).
Proof.
  induction cs as [| c cs IH]; intros w H k Hk; [cbn in Hk; lia |].
  destruct (from_chars_cons_inv _ _ _ H) as (d & v & E & F & ->).
  destruct k; cbn [nth]; auto. apply IH; auto. cbn in Hk. lia.
Qed.

Lemma from_chars_total cs : (forall c, In c cs -> exists d, index_of charset c = Some d) ->
  exists w, from_chars cs = Ok w.
Proof.
  induction cs as [| c cs IH]; intros H; [eexists; reflexivity |].
  destruct (H c (or_introl eq_refl)) as [d E].
  destruct IH as [w F]; [intros x Hx; apply H; right; auto |].
  exists (d :: w). cbn [from_chars]. rewrite E, F. reflexivity.
Qed.

Lemma nth_ext_le {A} (a b : list A) (d : A) : length a = length b ->
  (forall j, (j < length a)%nat -> nth j a d = nth j b d) -> a = b.
Proof. intros L H. apply (nth_ext _ _ d d); auto. Qed.

(** Two strings with the same human-readable part: the accepted one and another one. *)
Lemma frame s hrp data s' : ascii_string s -> decode s = Ok (hrp, data) ->
  ascii_string s' -> length s = length s' ->
  (forall j, (j <= length hrp)%nat -> fold_case (nth j s' 0) = fold_case (nth j s 0)) ->
  (forall j, (length hrp < j < length s)%nat -> data_char (nth j s' 0)) ->
  exists hl w w', grp 5 (expand hl) /\ grp 5 w /\ grp 5 w' /\ length w = length w' /\
    (length s = length hrp + 1 + length w)%nat /\
    (forall k, (k < length w)%nat ->
       (nth k w 0 = nth k w' 0 <->
        fold_case (nth (length hrp + 1 + k) s 0) = fold_case (nth (length hrp + 1 + k) s' 0))) /\
    (polymod (expand hl ++ w) <> polymod (expand hl ++ w') ->
     decode s' = Err EBech32Checksum \/ (decode s' = Err EBech32Mixed /\ ~ single_case s')).
Proof.
  intros As Hd As' L Hpre Hdat. apply ascii_string_spec in As, As'. change fold_case with lower_byte in *.
  destruct (decode_inv s hrp data As Hd) as
    (hl & cs & w & Case & Es & Nh & Hh & Hll & Fc & L6 & P0 & Eh & Ehl & Cv).
  destruct (from_chars_inv _ _ Fc) as (Gw & Lw & _).
  assert (Lh : length hl = length hrp) by (rewrite <- Ehl, map_length; auto).
  assert (Ls : length s = (length hrp + 1 + length w)%nat).
  { rewrite <- (map_length lower_byte s), Es, app_length. cbn. lia. }
  set (n := (length hrp + 1)%nat) in *.
  set (cs' := map lower_byte (skipn n s')).
  assert (Lcs' : length cs' = length w) by (unfold cs'; rewrite map_length, skipn_length; lia).
  assert (NL : forall j (l : bytes), (j < length l)%nat -> nth j (map lower_byte l) 0 = lower_byte (nth j l 0)).
  { intros j l Hj. rewrite (nth_indep _ 0 (lower_byte 0)) by (rewrite map_length; auto). apply map_nth. }
  assert (NS : forall k, nth k (skipn n s') 0 = nth (n + k) s' 0).
  { clear. generalize n. intros n0 k. revert s'. induction n0; intros s'; [reflexivity |].
    destruct s'; [destruct k; reflexivity | apply IHn0]. }
  assert (Es' : map lower_byte s' = hl ++ 49 :: cs').
  { rewrite <- (firstn_skipn n s'), map_app. fold cs'.
    replace (hl ++ 49 :: cs') with ((hl ++ [49]) ++ cs') by (rewrite <- app_assoc; reflexivity).
    f_equal. apply (nth_ext_le _ _ 0).
    - rewrite map_length, firstn_length, app_length. cbn. lia.
    - intros j Hj. rewrite map_length, firstn_length in Hj.
      rewrite NL by (rewrite firstn_length; lia).
      replace (nth j (firstn n s') 0) with (nth j s' 0).
      2:{ rewrite <- (firstn_skipn n s') at 1. rewrite app_nth1; auto. rewrite firstn_length. lia. }
      rewrite Hpre by lia. rewrite <- NL by lia. rewrite Es.
      replace (hl ++ 49 :: cs) with ((hl ++ [49]) ++ cs) by (rewrite <- app_assoc; reflexivity).
      apply app_nth1. rewrite app_length. cbn. lia. }
  destruct (from_chars_total cs') as [w' Fc'].
  { intros c Hc. unfold cs' in Hc. apply in_map_iff in Hc as (x & <- & Hx).
    apply (In_nth _ _ 0) in Hx as (k & Hk & <-). rewrite skipn_length in Hk.
    apply data_char_spec. rewrite NS. apply Hdat. unfold n in *. lia. }
  destruct (from_chars_inv _ _ Fc') as (Gw' & Lw' & _).
  exists hl, w, w'. split; [apply expand_grp; auto |]. split; [auto |]. split; [auto |]. split; [lia |].
  split; [unfold n in *; lia |]. split.
  - intros k Hk.
    pose proof (from_chars_nth _ _ Fc k ltac:(lia)) as E1.
    pose proof (from_chars_nth _ _ Fc' k ltac:(lia)) as E2.
    assert (X1 : nth k cs 0 = lower_byte (nth (n + k) s 0)).
    { rewrite <- NL by lia. rewrite Es.
      replace (hl ++ 49 :: cs) with ((hl ++ [49]) ++ cs) by (rewrite <- app_assoc; reflexivity).
      rewrite app_nth2 by (rewrite app_length; cbn; lia). f_equal. rewrite app_length. cbn. lia. }
    assert (X2 : nth k cs' 0 = lower_byte (nth (n + k) s' 0)).
    { unfold cs'. rewrite NL by (rewrite skipn_length; lia). rewrite NS. reflexivity. }
    rewrite <- X1, <- X2. split; intros E.
    + rewrite E in E1. apply index_of_charset in E1 as [_ E1]. apply index_of_charset in E2 as [_ E2]. congruence.
    + rewrite E in E1. congruence.
  - intros N. rewrite (reject_other s s' hrp data hl cs cs' w w'); auto; [| lia].
    destruct (_ || _) eqn:B; [left; reflexivity |]. right. split; auto.
    rewrite single_case_bool. congruence.
Qed.

Lemma xors_nth a : forall b k, length a = length b -> (k < length a)%nat -> nth k (xors a b) 0 = Z.lxor (nth k a 0) (nth k b 0).
Proof.
  induction a as [| x a IH]; intros [| y b] k L Hk; try discriminate; [cbn in Hk; lia |].
  destruct k; cbn [xors nth]; auto. apply IH; cbn in *; lia.
Qed.
Lemma xors_length a : forall b, length a = length b -> length (xors a b) = length a.
Proof. induction a as [| x a IH]; intros [| y b] L; try discriminate; cbn; auto. Qed.

Lemma reg_pre p w w' : grp 5 p -> grp 5 w -> grp 5 w' -> length w = length w' ->
  reg 0 (xors w w') <> 0 -> polymod (p ++ w) <> polymod (p ++ w').
Proof.
  intros Hp Hw Hw' L N E. apply N.
  assert (D : Z.lxor (polymod (p ++ w)) (polymod (p ++ w')) = 0) by (rewrite E; apply Z.lxor_nilpotent).
  rewrite polymod_diff in D.
  - rewrite xors_app, xors_self, reg_app, reg_zeros_0 in D by auto. exact D.
  - rewrite !app_length. lia.
  - apply Forall_app; auto.
  - apply Forall_app; auto.
Qed.

Lemma all_zero l : (forall k, (k < length l)%nat -> nth k l 0 = 0) -> l = repeat 0 (length l).
Proof.
  intros H. apply (nth_ext_le _ _ 0); [rewrite repeat_length; auto |].
  intros j Hj. rewrite H, nth_repeat; auto.
Qed.

Lemma nth_skipn {A} n : forall k (l : list A) d, nth k (skipn n l) d = nth (n + k) l d.
Proof.
  induction n; intros k l d; [reflexivity |]. destruct l; [destruct k; reflexivity | apply IHn].
Qed.
Lemma nth_firstn {A} n : forall k (l : list A) d, (k < n)%nat -> nth k (firstn n l) d = nth k l d.
Proof.
  induction n; intros k l d H; [lia |]. destruct l; [reflexivity |]. destruct k; [reflexivity |]. cbn [firstn nth]. apply IHn. lia.
Qed.

(** An error pattern confined to six consecutive symbols. *)
Lemma burst e k0 : grp 5 e -> (exists k, (k < length e)%nat /\ nth k e 0 <> 0) ->
  (forall k, (k < length e)%nat -> nth k e 0 <> 0 -> (k0 <= k < k0 + 6)%nat) -> reg 0 e <> 0.
Proof.
  intros He (k & Hk & Nk) Hw.
  pose proof (Hw k Hk Nk) as Rk.
  assert (E : e = repeat 0 k0 ++ firstn 6 (skipn k0 e) ++ repeat 0 (length e - k0 - 6)).
  { rewrite <- (firstn_skipn k0 e) at 1. f_equal.
    - rewrite (all_zero (firstn k0 e)).
      + rewrite firstn_length. f_equal. lia.
      + intros j Hj. rewrite firstn_length in Hj. rewrite nth_firstn by lia.
        destruct (Z.eq_dec (nth j e 0) 0); auto. apply Hw in n; lia.
    - rewrite <- (firstn_skipn 6 (skipn k0 e)) at 1. f_equal.
      rewrite (all_zero (skipn 6 (skipn k0 e))).
      + rewrite !skipn_length. f_equal.
      + intros j Hj. rewrite !skipn_length in Hj. rewrite !nth_skipn.
        destruct (Z.eq_dec (nth (k0 + (6 + j)) e 0) 0); auto. apply Hw in n; lia. }
  assert (Gm : grp 5 (firstn 6 (skipn k0 e))) by (apply Forall_firstn', Forall_skipn', He).
  rewrite E, !reg_app, reg_zeros_0. apply reg_zeros_nonzero.
  - apply reg_range; auto. unfold in30; lia.
  - rewrite reg_0_small; auto; [| rewrite firstn_length; lia].
    intros Z0.
    assert (Zr : firstn 6 (skipn k0 e) = repeat 0 (length (firstn 6 (skipn k0 e)))).
    { apply (bev_inj (2 ^ 5)); auto; try lia.
      - rewrite repeat_length. reflexivity.
      - apply grp_zeros.
      - rewrite Z0. clear. generalize (length (firstn 6 (skipn k0 e))). intros n. induction n; auto. }
    apply Nk. replace k with (k0 + (k - k0))%nat by lia. rewrite <- nth_skipn.
    rewrite <- (nth_firstn 6) by lia. rewrite Zr. apply nth_repeat.
Qed.

Lemma two_pattern e i j : grp 5 e -> (i < j < length e)%nat -> (j - i < 1023)%nat -> nth i e 0 <> 0 ->
  (forall k, (k < length e)%nat -> nth k e 0 <> 0 -> k = i \/ k = j) -> reg 0 e <> 0.
Proof.
  intros He Hij Hd Ni Hw.
  assert (Z1 : forall k, (k < length e)%nat -> k <> i -> k <> j -> nth k e 0 = 0).
  { intros k Hk A B. destruct (Z.eq_dec (nth k e 0) 0); auto. destruct (Hw k Hk n); contradiction. }
  assert (E : e = repeat 0 i ++ nth i e 0 :: repeat 0 (j - i - 1) ++ nth j e 0 :: repeat 0 (length e - j - 1)).
  { apply (nth_ext_le _ _ 0).
    - rewrite !app_length. cbn. rewrite !app_length. cbn. rewrite !repeat_length. lia.
    - intros k Hk. destruct (lt_dec k i).
      { rewrite app_nth1 by (rewrite repeat_length; lia). rewrite nth_repeat. apply Z1; lia. }
      rewrite app_nth2 by (rewrite repeat_length; lia). rewrite repeat_length.
      destruct (k - i)%nat as [| k'] eqn:Ek; cbn [nth]; [f_equal; lia |].
      destruct (lt_dec k j).
      { rewrite app_nth1 by (rewrite repeat_length; lia). rewrite nth_repeat. apply Z1; lia. }
      rewrite app_nth2 by (rewrite repeat_length; lia). rewrite repeat_length.
      destruct (k' - (j - i - 1))%nat as [| k''] eqn:Ek'; cbn [nth]; [f_equal; lia |].
      rewrite nth_repeat. apply Z1; lia. }
  assert (Gi : forall k, (k < length e)%nat -> 0 <= nth k e 0 < 32).
  { intros k Hk. eapply Forall_forall in He; [exact He | apply nth_In; auto]. }
  pose proof (Gi i ltac:(lia)) as G1. pose proof (Gi j ltac:(lia)) as G2.
  set (d := nth i e 0) in *. set (d' := nth j e 0) in *.
  assert (I0 : in30 0) by (unfold in30; lia).
  rewrite E, reg_app, reg_zeros_0. cbn [reg fold_left].
  fold (reg (polymod_step 0 d) (repeat 0 (j - i - 1) ++ d' :: repeat 0 (length e - j - 1))).
  rewrite step_clk, clk_0, Z.lxor_0_l by auto.
  rewrite reg_app, reg_zeros_clks by (apply in30_small; auto).
  cbn [reg fold_left]. rewrite step_clk by (apply clks_range, in30_small; auto).
  fold (reg (Z.lxor (clk (clks (j - i - 1) d)) d') (repeat 0 (length e - j - 1))).
  change (clk (clks (j - i - 1) d)) with (clks (S (j - i - 1)) d).
  apply reg_zeros_nonzero.
  - apply lxor_range; [lia | apply clks_range, in30_small; auto | apply in30_small; auto].
  - intros Z0. apply Z.lxor_eq in Z0. revert Z0. apply two_far; auto. lia.
Qed.

(** Any substitutions within a window of six consecutive characters of the data part. *)
Lemma burst_lemma s hrp data s' i0 : ascii_string s -> decode s = Ok (hrp, data) ->
  ascii_string s' -> length s = length s' ->
  (forall j, (j <= length hrp)%nat -> fold_case (nth j s' 0) = fold_case (nth j s 0)) ->
  (forall j, (length hrp < j < length s)%nat -> data_char (nth j s' 0)) ->
  (exists j, (j < length s)%nat /\ fold_case (nth j s' 0) <> fold_case (nth j s 0)) ->
  (forall j, (j < length s)%nat -> fold_case (nth j s' 0) <> fold_case (nth j s 0) -> (i0 <= j < i0 + 6)%nat) ->
  decode s' = Err EBech32Checksum \/ (decode s' = Err EBech32Mixed /\ ~ single_case s').
Proof.
  intros As Hd As' L Hpre Hdat (j & Hj & Nj) Hw.
  destruct (frame s hrp data s' As Hd As' L Hpre Hdat) as (hl & w & w' & Ge & Gw & Gw' & Lw & Ls & Hn & Hr).
  apply Hr. apply reg_pre; auto.
  set (n := (length hrp + 1)%nat) in *.
  assert (Jn : (n <= j)%nat).
  { destruct (le_lt_dec n j); auto. exfalso. apply Nj, Hpre. unfold n in *. lia. }
  assert (Iff : forall k, (k < length w)%nat -> nth k (xors w w') 0 <> 0 <->
                 fold_case (nth (n + k) s' 0) <> fold_case (nth (n + k) s 0)).
  { intros k Hk. rewrite xors_nth by auto. rewrite Z.lxor_eq_0_iff, Hn by auto. split; intros A B; apply A; auto. }
  apply (burst _ (i0 - n)).
  - apply xors_grp; auto.
  - exists (j - n)%nat. rewrite xors_length by auto. split; [lia |]. apply Iff; [lia |].
    replace (n + (j - n))%nat with j by lia. auto.
  - intros k Hk Nk. rewrite xors_length in Hk by auto. apply Iff in Nk; auto. apply Hw in Nk; lia.
Qed.

Lemma two_lemma s hrp data s' i1 i2 : ascii_string s -> decode s = Ok (hrp, data) ->
  ascii_string s' -> length s = length s' ->
  (forall j, (length hrp < j < length s)%nat -> data_char (nth j s' 0)) ->
  (length hrp < i1)%nat -> (i1 < i2 < length s)%nat -> (i2 - i1 < 1023)%nat ->
  fold_case (nth i1 s' 0) <> fold_case (nth i1 s 0) ->
  (forall j, (j < length s)%nat -> j <> i1 -> j <> i2 -> fold_case (nth j s' 0) = fold_case (nth j s 0)) ->
  decode s' = Err EBech32Checksum \/ (decode s' = Err EBech32Mixed /\ ~ single_case s').
Proof.
  intros As Hd As' L Hdat H1 H2 H3 Nj Hw.
  assert (Hpre : forall j, (j <= length hrp)%nat -> fold_case (nth j s' 0) = fold_case (nth j s 0))
    by (intros; apply Hw; lia).
  destruct (frame s hrp data s' As Hd As' L Hpre Hdat) as (hl & w & w' & Ge & Gw & Gw' & Lw & Ls & Hn & Hr).
  apply Hr. apply reg_pre; auto.
  set (n := (length hrp + 1)%nat) in *.
  assert (Iff : forall k, (k < length w)%nat -> nth k (xors w w') 0 <> 0 <->
                 fold_case (nth (n + k) s' 0) <> fold_case (nth (n + k) s 0)).
  { intros k Hk. rewrite xors_nth by auto. rewrite Z.lxor_eq_0_iff, Hn by auto. split; intros A B; apply A; auto. }
  apply (two_pattern _ (i1 - n) (i2 - n)).
  - apply xors_grp; auto.
  - rewrite xors_length by auto. lia.
  - lia.
  - apply Iff; [lia |]. replace (n + (i1 - n))%nat with i1 by lia. auto.
  - intros k Hk Nk. rewrite xors_length in Hk by auto. apply Iff in Nk; auto.
    destruct (Nat.eq_dec (n + k) i1); [left; lia |]. destruct (Nat.eq_dec (n + k) i2); [right; lia |].
    exfalso. apply Nk. apply Hw; lia.
Qed.

Lemma replace_length i c s : (i < length s)%nat -> length (replace_at i c s) = length s.
Proof. intros. unfold replace_at. rewrite app_length. cbn [length]. rewrite firstn_length, skipn_length. lia. Qed.
Lemma replace_nth i c s j : (i < length s)%nat -> nth j (replace_at i c s) 0 = if Nat.eqb j i then c else nth j s 0.
Proof.
  intros H. unfold replace_at. destruct (Nat.eqb_spec j i) as [-> | N].
  - rewrite app_nth2 by (rewrite firstn_length; lia). rewrite firstn_length. replace (i - Nat.min i (length s))%nat with 0%nat by lia. reflexivity.
  - destruct (lt_dec j i).
    + rewrite app_nth1 by (rewrite firstn_length; lia). apply nth_firstn; auto.
    + rewrite app_nth2 by (rewrite firstn_length; lia). rewrite firstn_length.
      replace (j - Nat.min i (length s))%nat with (S (j - i - 1)) by lia. cbn [nth].
      rewrite nth_skipn. f_equal. lia.
Qed.

Lemma data_char_ascii c : data_char c -> c < 128.
Proof.
  unfold data_char, fold_case. change (if (65 <=? c) && (c <=? 90) then c + 32 else c) with (lower_byte c). intros H.
  apply lower_128. cbn in H. lia.
Qed.
Lemma replace_ascii i c s : ascii_string s -> data_char c -> ascii_string (replace_at i c s).
Proof.
  intros As Hc x Hx. unfold replace_at in Hx. apply in_app_or in Hx as [Hx | [<- | Hx]].
  - apply As. rewrite <- (firstn_skipn i s). apply in_or_app. auto.
  - apply data_char_ascii; auto.
  - apply As. rewrite <- (firstn_skipn (S i) s). apply in_or_app. auto.
Qed.

Lemma accepted_data_char s hrp data j : ascii_string s -> decode s = Ok (hrp, data) ->
  (length hrp < j < length s)%nat -> data_char (nth j s 0).
Proof.
  intros As Hd Hj. apply ascii_string_spec in As.
  destruct (decode_inv s hrp data As Hd) as
    (hl & cs & w & Case & Es & Nh & Hh & Hll & Fc & L6 & P0 & Eh & Ehl & Cv).
  assert (Lh : length hl = length hrp) by (rewrite <- Ehl, map_length; auto).
  destruct (from_chars_inv _ _ Fc) as (Gw & Lw & _).
  assert (Ls : length s = (length hrp + 1 + length w)%nat).
  { rewrite <- (map_length lower_byte s), Es, app_length. cbn. lia. }
  apply data_char_spec. exists (nth (j - (length hrp + 1)) w 0).
  rewrite <- (from_chars_nth _ _ Fc) by lia. f_equal.
  rewrite <- (map_nth lower_byte), Es. change (lower_byte 0) with 0.
  replace (hl ++ 49 :: cs) with ((hl ++ [49]) ++ cs) by (rewrite <- app_assoc; reflexivity).
  rewrite app_nth2 by (rewrite app_length; cbn; lia). f_equal. rewrite app_length. cbn. lia.
Qed.

Lemma C03_one_lemma s hrp data i c : ascii_string s -> decode s = Ok (hrp, data) ->
  (length hrp < i < length s)%nat -> data_char c -> fold_case c <> fold_case (nth i s 0) ->
  decode (replace_at i c s) = Err EBech32Checksum \/
  (decode (replace_at i c s) = Err EBech32Mixed /\ ~ single_case (replace_at i c s)).
Proof.
  intros As Hd Hi Hc Nc.
  apply (burst_lemma s hrp data _ i As Hd).
  - apply replace_ascii; auto.
  - rewrite replace_length; lia.
  - intros j Hj. rewrite replace_nth by lia. destruct (Nat.eqb_spec j i); [lia | reflexivity].
  - intros j Hj. rewrite replace_nth by lia. destruct (Nat.eqb_spec j i); [auto |].
    eapply accepted_data_char; eauto.
  - exists i. split; [lia |]. rewrite replace_nth, Nat.eqb_refl by lia. auto.
  - intros j Hj. rewrite replace_nth by lia. destruct (Nat.eqb_spec j i); [lia | intros N; contradiction].
Qed.

Lemma C03_two_lemma s hrp data i c j d : ascii_string s -> decode s = Ok (hrp, data) ->
  (length hrp < i)%nat -> (i < j < length s)%nat -> (j - i < 1023)%nat -> data_char c -> data_char d ->
  fold_case c <> fold_case (nth i s 0) -> fold_case d <> fold_case (nth j s 0) ->
  let s' := replace_at j d (replace_at i c s) in
  decode s' = Err EBech32Checksum \/ (decode s' = Err EBech32Mixed /\ ~ single_case s').
Proof.
  intros As Hd Hi Hj Hij Hc Hdd Nc Nd s'.
  assert (L1 : length (replace_at i c s) = length s) by (apply replace_length; lia).
  assert (Nth : forall k, nth k s' 0 = if Nat.eqb k j then d else if Nat.eqb k i then c else nth k s 0).
  { intros k. unfold s'. rewrite replace_nth by lia. destruct (Nat.eqb k j); auto. apply replace_nth. lia. }
  apply (two_lemma s hrp data s' i j As Hd).
  - apply replace_ascii; auto. apply replace_ascii; auto.
  - unfold s'. rewrite !replace_length; lia.
  - intros k Hk. rewrite Nth. destruct (Nat.eqb_spec k j); auto. destruct (Nat.eqb_spec k i); auto.
    eapply accepted_data_char; eauto.
  - auto.
  - auto.
  - auto.
  - rewrite Nth. destruct (Nat.eqb_spec i j); [lia |]. rewrite Nat.eqb_refl. auto.
  - intros k Hk N1 N2. rewrite Nth. destruct (Nat.eqb_spec k j); [contradiction |].
    destruct (Nat.eqb_spec k i); [contradiction |]. reflexivity.
Qed.

Lemma decode_ascii s r : ascii_string s \/ to_lower s = s -> decode s = Ok r -> ascii_only s = true.
Proof.
  intros [A | L] H; [apply ascii_string_spec; auto | eapply decode_lower_ascii; eauto].
Qed.

Lemma C02_lemma s hrp data : ascii_string s \/ to_lower s = s -> decode s = Ok (hrp, data) ->
  byte_string data /\ single_case s /\
  exists s', encode hrp data = Ok s' /\ map fold_case s' = map fold_case s /\ (map fold_case s = s -> s' = s).
Proof.
  intros A H. pose proof (decode_ascii s _ A H) as As.
  destruct (bech32_canonical s hrp data As H) as (B & s' & E & L & LL & _).
  split; [apply byte_string_spec; auto |]. split.
  - apply single_case_spec.
    destruct (decode_inv s hrp data As H) as (hl & cs & w & Case & _).
    rewrite to_lower_ascii, to_upper_ascii in Case by auto. tauto.
  - exists s'. auto.
Qed.

Lemma C02_inj_lemma s t r : ascii_string s \/ to_lower s = s -> ascii_string t \/ to_lower t = t ->
  map fold_case s = s -> map fold_case t = t -> decode s = Ok r -> decode t = Ok r -> s = t.
Proof.
  intros As At Ls Lt Hs Ht. destruct r as [hrp data].
  destruct (C02_lemma s hrp data As Hs) as (_ & _ & s' & Es & _ & Cs).
  destruct (C02_lemma t hrp data At Ht) as (_ & _ & t' & Et & _ & Ct).
  rewrite <- (Cs Ls), <- (Ct Lt). congruence.
Qed.

Lemma C02_alphabet_lemma s hrp data : ascii_string s \/ to_lower s = s -> decode s = Ok (hrp, data) ->
  valid_hrp hrp /\ exists body, s = hrp ++ 49 :: body /\ (6 <= length body)%nat /\
  forall c, In c body -> data_char c.
Proof.
  intros A H. pose proof (decode_ascii s _ A H) as As.
  split.
  - destruct (C02_lemma s hrp data A H) as (_ & _ & s' & E & _). eapply encode_accepts; eauto.
  - destruct (decode_inv s hrp data As H) as
      (hl & cs & w & Case & Es & Nh & Hh & Hll & Fc & L6 & P0 & Eh & Ehl & Cv).
    destruct (from_chars_inv _ _ Fc) as (Gw & Lw & _).
    pose proof Es as Es2. apply map_eq_app in Es2 as (a & r & -> & Ea & Er).
    destruct r as [| x b]; [discriminate |]. cbn in Er. injection Er as Ex Eb.
    apply (proj1 (lower_49 x)) in Ex. subst x.
    assert (hrp = a).
    { rewrite Eh, <- Ea, map_length, firstn_app, Nat.sub_diag, firstn_all. apply app_nil_r. }
    subst a. exists b. split; [reflexivity |]. split.
    + rewrite <- Eb, map_length in Lw. lia.
    + intros c Hc. apply data_char_spec. apply (in_map lower_byte) in Hc. rewrite Eb in Hc.
      apply (In_nth _ _ 0) in Hc as (k & Hk & <-). exists (nth k w 0). apply from_chars_nth; auto.
Qed.

Lemma convert_no_panic d f t p : convertBits d f t p <> Panic.
Proof.
  assert (Em : forall n acc bits maxv ret, emit n acc bits t maxv ret <> Panic).
  { induction n; intros; cbn; [discriminate |]. destruct (t <=? bits); [apply IHn | discriminate]. }
  assert (Cl : forall d maxv acc bits ret, convert_loop d f t maxv acc bits ret <> Panic).
  { induction d0 as [| v d0 IH]; intros; cbn -[emit]; [discriminate |].
    destruct (negb _); [discriminate |].
    match goal with |- context [emit ?a ?b ?c ?d ?e ?f] => pose proof (Em a b c e f); destruct (emit a b c d e f) as [[? ?] | |] end;
      cbn [bind]; try discriminate; try contradiction. apply IH. }
  unfold convertBits. pose proof (Cl d (u8 (Z.shiftl 1 t - 1)) 0 0 []) as N.
  destruct (convert_loop _ _ _ _ _ _ _) as [[[? ?] ?] | |]; cbn [bind]; try discriminate; try contradiction.
  destruct p; [destruct (0 <? _); discriminate |]. destruct (f <=? _); [discriminate |]. destruct (negb _); discriminate.
Qed.

Lemma from_chars_no_panic cs : from_chars cs <> Panic.
Proof.
  induction cs as [| c cs IH]; cbn [from_chars]; [discriminate |].
  destruct (index_of charset c); [| discriminate]. destruct (from_chars cs); cbn; congruence.
Qed.

Lemma C61_lemma s : ascii_string s \/ to_lower s = s -> decode s <> Panic.
Proof.
  intros A H. assert (L : length (to_lower s) = length s).
  { destruct A as [A | ->]; auto. apply ascii_string_spec in A. rewrite to_lower_ascii, map_length; auto. }
  unfold decode in H. destruct (negb _ && negb _); [discriminate |].
  destruct (last_index s 49) as [pos |]; [| discriminate].
  destruct ((pos <? 1) || (length s <? pos + 7))%nat eqn:B; [discriminate |].
  apply orb_false_iff in B as [B1 B2]. apply Nat.ltb_ge in B1, B2.
  destruct (negb _); [discriminate |].
  destruct (slice (to_lower s) (pos + 1) (length (to_lower s))) as [rest | |] eqn:Sl; cbn [bind] in H; try discriminate.
  - pose proof (from_chars_no_panic rest) as NP.
    destruct (from_chars rest) as [w | |] eqn:F; cbn [bind] in H; try discriminate; try contradiction.
    destruct (negb _); [discriminate |].
    assert (Lr : length rest = (length s - (pos + 1))%nat).
    { unfold slice in Sl. destruct (_ && _)%bool; [| discriminate]. injection Sl as <-.
      rewrite firstn_length, skipn_length. lia. }
    destruct (from_chars_inv _ _ F) as (_ & Lw & _).
    destruct (Nat.ltb_spec (length w) 6); [lia |].
    pose proof (convert_no_panic (firstn (length w - 6) w) 5 8 false) as NC.
    destruct (convertBits _ _ _ _); cbn [bind] in H; try discriminate. contradiction.
  - unfold slice in Sl. destruct (_ && _)%bool eqn:BB; [discriminate |].
    apply andb_false_iff in BB. rewrite !Nat.leb_gt in BB. lia.
Qed.

Definition kelvin_text : bytes := str "A1" ++ [226; 132; 170] ++ str "QDY2WL0".
Definition kelvin_panic : bytes := str "BK1" ++ [226; 132; 170] ++ str "0JFM".

Lemma kelvin_decode t l : ascii_only t = false -> uni_lower t = l -> uni_upper t = t ->
  decode t =
  match last_index t 49 with
  | None => Err EBech32Sep
  | Some pos =>
      if ((pos <? 1) || (length t <? pos + 7))%nat then Err EBech32Sep else
      let hrp := firstn pos t in
      if negb (hrp_chars_ok hrp) then Err EBech32HRPChar else
      do rest <- slice l (pos + 1) (length l);
      do data <- from_chars rest;
      if negb (verifyChecksum hrp data) then Err EBech32Checksum else
      if (length data <? 6)%nat then Panic else
      do payload <- convertBits (firstn (length data - 6) data) 5 8 false;
      Ok (hrp, payload)
  end.
Proof.
  intros A El Eu. unfold decode. unfold to_lower, to_upper. rewrite A, El, Eu, bytes_eqb_refl, andb_false_r. reflexivity.
Qed.

Lemma C02_refuted_lemma :
  uni_lower kelvin_text = str "a1kqdy2wl0" -> uni_upper kelvin_text = kelvin_text ->
  exists s hrp data, decode s = Ok (hrp, data) /\
    (exists c, In c s /\ ~ data_char c /\ 128 <= c) /\
    forall s', encode hrp data = Ok s' -> map fold_case s' <> map fold_case s.
Proof.
  intros El Eu. exists kelvin_text, (str "A"), [176]. split; [| split].
  - rewrite (kelvin_decode kelvin_text _ eq_refl El Eu). vm_compute. reflexivity.
  - exists 226. split; [vm_compute; tauto |]. split; [| lia]. intros H. apply data_char_ascii in H. lia.
  - intros s' E. assert (E2 : encode (str "A") [176] = Ok (str "A1KQDY2WL0")) by (vm_compute; reflexivity).
    rewrite E2 in E. injection E as <-. vm_compute. discriminate.
Qed.

Lemma C61_refuted_lemma :
  uni_lower kelvin_panic = str "bk1k0jfm" -> uni_upper kelvin_panic = kelvin_panic ->
  exists s, decode s = Panic.
Proof.
  intros El Eu. exists kelvin_panic. rewrite (kelvin_decode kelvin_panic _ eq_refl El Eu). vm_compute. reflexivity.
Qed.
End Uni.
