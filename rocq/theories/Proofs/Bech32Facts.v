(** Encode and Decode of internal/bech32. *)
From Verif.Model Require Import Base Bech32.
From Verif.Proofs Require Import Util ConvertBits Polymod.

(** ** Letter case *)
Ltac case_tac := unfold lower_byte, upper_byte;
  repeat match goal with |- context [?a <=? ?b] =>
    lazymatch constr:((a, b)) with
    | context [match _ with _ => _ end] => fail
    | _ => destruct (Z.leb_spec a b); cbn [andb]
    end end; try lia.

Lemma lower_idem c : lower_byte (lower_byte c) = lower_byte c.
Proof. case_tac. Qed.
Lemma upper_idem c : upper_byte (upper_byte c) = upper_byte c.
Proof. case_tac. Qed.
Lemma lower_upper c : lower_byte (upper_byte c) = lower_byte c.
Proof. case_tac. Qed.
Lemma upper_lower c : upper_byte (lower_byte c) = upper_byte c.
Proof. case_tac. Qed.
Lemma lower_49 c : lower_byte c = 49 <-> c = 49.
Proof. case_tac. Qed.
Lemma upper_49 c : upper_byte c = 49 <-> c = 49.
Proof. case_tac. Qed.
Lemma lower_128 c : lower_byte c < 128 <-> c < 128.
Proof. case_tac. Qed.
Lemma upper_128 c : upper_byte c < 128 <-> c < 128.
Proof. case_tac. Qed.
Lemma lower_range c : 33 <= lower_byte c <= 126 <-> 33 <= c <= 126.
Proof. case_tac. Qed.

Lemma ascii_only_Forall s : ascii_only s = true <-> Forall (fun c => c < 128) s.
Proof. unfold ascii_only. rewrite forallb_forall, Forall_forall. split; intros H x Hx; apply H in Hx; lia. Qed.

Lemma ascii_map_lower s : ascii_only (map lower_byte s) = ascii_only s.
Proof.
  unfold ascii_only. induction s; cbn; auto. rewrite IHs. f_equal.
  apply eq_true_iff_eq. rewrite !Z.ltb_lt. apply lower_128.
Qed.
Lemma ascii_map_upper s : ascii_only (map upper_byte s) = ascii_only s.
Proof.
  unfold ascii_only. induction s; cbn; auto. rewrite IHs. f_equal.
  apply eq_true_iff_eq. rewrite !Z.ltb_lt. apply upper_128.
Qed.

Lemma bytes_eqb_eq a : forall b, bytes_eqb a b = true <-> a = b.
Proof.
  induction a as [| x a IH]; intros [| y b]; cbn; split; intros H; try discriminate; auto.
  - apply andb_prop in H as [H1 H2]. apply IH in H2. apply Z.eqb_eq in H1. congruence.
  - injection H as -> ->. rewrite Z.eqb_refl. apply IH. reflexivity.
Qed.
Lemma bytes_eqb_refl a : bytes_eqb a a = true.
Proof. apply bytes_eqb_eq. reflexivity. Qed.
Lemma bytes_eqb_neq a b : bytes_eqb a b = false <-> a <> b.
Proof.
  split; intros H.
  - intros E. apply bytes_eqb_eq in E. congruence.
  - destruct (bytes_eqb a b) eqn:E; auto. apply bytes_eqb_eq in E. contradiction.
Qed.

(** ** The character set *)
Lemma charset_char d : 0 <= d < 32 -> exists c, index charset (Z.to_nat d) = Ok c /\
  index_of charset c = Some d /\ lower_byte c = c /\ c <> 49 /\ 33 <= c <= 126.
Proof.
  intros Hd.
  assert (S : forallb (fun d => match index charset (Z.to_nat d) with
     | Ok c => match index_of charset c with Some d' => (d' =? d) | None => false end
               && (lower_byte c =? c) && negb (c =? 49) && (33 <=? c) && (c <=? 126)
     | _ => false end) (zrange 32) = true) by (vm_compute; reflexivity).
  apply (sweep 32 _ S) in Hd. destruct (index charset (Z.to_nat d)) as [c | |]; try discriminate.
  exists c. destruct (index_of charset c); cbn in Hd; try discriminate.
  rewrite !andb_true_iff, negb_true_iff in Hd. repeat split; auto; try lia. f_equal. lia.
Qed.

Lemma index_of_spec s c d : index_of s c = Some d ->
  0 <= d < zlen s /\ nth_error s (Z.to_nat d) = Some c.
Proof.
  revert d. induction s as [| x s IH]; intros d H; cbn in H; [discriminate |].
  destruct (Z.eqb_spec x c) as [-> | N].
  - injection H as <-. split; [rewrite zlen_cons; pose proof (zlen_nonneg s); lia | reflexivity].
  - destruct (index_of s c) as [i |]; [| discriminate]. injection H as <-.
    destruct (IH i eq_refl) as [R E]. rewrite zlen_cons. split; [lia |].
    replace (Z.to_nat (i + 1)) with (S (Z.to_nat i)) by lia. exact E.
Qed.

Lemma index_of_charset c d : index_of charset c = Some d -> 0 <= d < 32 /\ index charset (Z.to_nat d) = Ok c.
Proof.
  intros H. apply index_of_spec in H as [R E]. split; [exact R |]. unfold index. rewrite E. reflexivity.
Qed.

Definition in_charset (c : Z) : Prop := exists d, index_of charset c = Some d.

Lemma to_chars_ok v : grp 5 v -> exists cs, to_chars v = Ok cs /\ length cs = length v /\
  from_chars cs = Ok v /\ Forall (fun c => lower_byte c = c /\ c <> 49 /\ 33 <= c <= 126) cs.
Proof.
  induction v as [| d v IH]; intros H.
  - exists []. cbn. repeat split; auto.
  - inversion H; subst. destruct (IH H3) as (cs & E1 & L & E2 & F).
    destruct (charset_char d ltac:(lia)) as (c & C1 & C2 & C3 & C4 & C5).
    exists (c :: cs). cbn [to_chars from_chars]. rewrite C1, E1, C2, E2. cbn.
    repeat split; auto.
Qed.

Lemma from_chars_inv cs : forall v, from_chars cs = Ok v ->
  grp 5 v /\ length v = length cs /\ to_chars v = Ok cs /\
  Forall (fun c => lower_byte c = c /\ c <> 49 /\ 33 <= c <= 126) cs.
Proof.
  induction cs as [| c cs IH]; intros v H; cbn [from_chars] in H.
  - injection H as <-. repeat split; auto; constructor.
  - destruct (index_of charset c) as [d |] eqn:E; [| discriminate].
    apply bind_ok in H as (ds & H1 & H2). injection H2 as <-.
    destruct (IH ds H1) as (G & L & T & F). apply index_of_charset in E as [R I].
    destruct (charset_char d R) as (c' & C1 & C2 & C3 & C4 & C5).
    rewrite I in C1. injection C1 as <-.
    split; [constructor; auto | split; [cbn; lia | split]].
    + cbn [to_chars]. rewrite I, T. reflexivity.
    + constructor; auto.
Qed.

(** ** The separator *)
Lemma last_index_none s c : ~ In c s -> last_index s c = None.
Proof.
  induction s as [| x s IH]; intros H; cbn; auto. rewrite IH by (intro; apply H; right; auto).
  destruct (Z.eqb_spec x c); auto. exfalso. apply H. left. auto.
Qed.
Lemma last_index_split a b c : ~ In c b -> last_index (a ++ c :: b) c = Some (length a).
Proof.
  intros H. induction a as [| x a IH]; cbn.
  - rewrite last_index_none, Z.eqb_refl by auto. reflexivity.
  - rewrite IH. reflexivity.
Qed.
Lemma last_index_inv s c : forall i, last_index s c = Some i ->
  exists a b, s = a ++ c :: b /\ length a = i /\ ~ In c b.
Proof.
  induction s as [| x s IH]; intros i H; cbn in H; [discriminate |].
  destruct (last_index s c) as [j |] eqn:E.
  - injection H as <-. destruct (IH j eq_refl) as (a & b & -> & <- & N).
    exists (x :: a), b. auto.
  - destruct (Z.eqb_spec x c) as [-> | N]; [| discriminate]. injection H as <-.
    exists [], s. repeat split; auto. clear IH. intros I. revert E.
    clear -I. induction s as [| y s IH]; [contradiction |]. cbn.
    destruct (last_index s c) as [j |] eqn:E; [discriminate |].
    destruct (Z.eqb_spec y c); [discriminate |]. intros _.
    destruct I as [-> | I]; [contradiction |]. apply IH; auto.
Qed.

(** ** Expansion of the human-readable part *)
Definition expand (hl : bytes) : bytes := map (fun c => Z.shiftr c 5) hl ++ [0] ++ map (fun c => Z.land c 31) hl.

Lemma expand_grp hl : Forall (fun c => 33 <= c <= 126) hl -> grp 5 (expand hl).
Proof.
  intros H. unfold expand. apply Forall_app. split; [| apply Forall_app; split].
  - apply Forall_map. eapply Forall_impl; [| exact H]. cbv beta. intros c Hc.
    rewrite Z.shiftr_div_pow2 by lia. change (2 ^ 5) with 32. split.
    + apply Z.div_pos; lia.
    + apply Z.div_lt_upper_bound; lia.
  - constructor; [lia | constructor].
  - apply Forall_map. eapply Forall_impl; [| exact H]. cbv beta. intros c Hc.
    change 31 with (2 ^ 5 - 1). rewrite land_ones_mod by lia. apply Z.mod_pos_bound. lia.
Qed.

Lemma hrp_chars_Forall h : hrp_chars_ok h = true <-> Forall (fun c => 33 <= c <= 126) h.
Proof.
  unfold hrp_chars_ok. rewrite forallb_forall, Forall_forall. split; intros H x Hx; apply H in Hx; lia.
Qed.

Lemma hrp_ascii h : Forall (fun c => 33 <= c <= 126) h -> ascii_only h = true.
Proof. intros H. apply ascii_only_Forall. eapply Forall_impl; [| exact H]. cbn. lia. Qed.

Section Uni.
Context {U : Unicode}.

Lemma to_lower_ascii s : ascii_only s = true -> to_lower s = map lower_byte s.
Proof. unfold to_lower. intros ->. reflexivity. Qed.
Lemma to_upper_ascii s : ascii_only s = true -> to_upper s = map upper_byte s.
Proof. unfold to_upper. intros ->. reflexivity. Qed.

Lemma hrpExpand_ascii h : ascii_only h = true -> hrpExpand h = expand (map lower_byte h).
Proof. intros H. unfold hrpExpand. rewrite to_lower_ascii by auto. reflexivity. Qed.

Lemma map_map_id (f g : Z -> Z) l : (forall c, f (g c) = g c) -> map f (map g l) = map g l.
Proof. intros H. rewrite map_map. apply map_ext. intros; apply H. Qed.

(** What Decode does with a single-case ASCII string whose lower-case form is hl 1 cs. *)
Lemma decode_shape s hl cs w :
  ascii_only s = true -> (to_lower s = s \/ to_upper s = s) ->
  map lower_byte s = hl ++ 49 :: cs -> hl <> [] -> Forall (fun c => 33 <= c <= 126) hl ->
  from_chars cs = Ok w -> (6 <= length w)%nat ->
  decode s = if polymod (expand hl ++ w) =? 1
             then do p <- convertBits (firstn (length w - 6) w) 5 8 false; Ok (firstn (length hl) s, p)
             else Err EBech32Checksum.
Proof.
  intros As Case Es Nh Hh Hc Lw. unfold decode.
  replace (negb (bytes_eqb (to_lower s) s) && negb (bytes_eqb (to_upper s) s)) with false.
  2:{ symmetry. apply andb_false_iff. rewrite !negb_false_iff, !bytes_eqb_eq. tauto. }
  destruct (from_chars_inv _ _ Hc) as (Gw & Lcs & _ & Fcs).
  (* split s *)
  assert (Sp : exists a b, s = a ++ 49 :: b /\ map lower_byte a = hl /\ map lower_byte b = cs).
  { pose proof Es as Es2. apply map_eq_app in Es2 as (a & r & -> & <- & Er).
    destruct r as [| x b]; [discriminate |]. cbn in Er. injection Er as Ex <-.
    apply (proj1 (lower_49 x)) in Ex. subst x. eauto. }
  destruct Sp as (a & b & -> & Ea & Eb).
  assert (Nb : ~ In 49 b).
  { intros I. apply (in_map lower_byte) in I. rewrite Eb in I.
    rewrite Forall_forall in Fcs. apply Fcs in I. cbn in I. lia. }
  rewrite last_index_split by auto.
  assert (La : length a = length hl) by (rewrite <- Ea, map_length; auto).
  assert (Lb : length b = length w) by (rewrite Lcs, <- Eb, map_length; auto).
  assert (Lh : (1 <= length a)%nat) by (rewrite La; destruct hl; [contradiction | cbn; lia]).
  rewrite app_length. cbn [length].
  replace ((length a <? 1)%nat) with false by (symmetry; apply Nat.ltb_ge; lia).
  replace ((length a + S (length b) <? length a + 7)%nat) with false by (symmetry; apply Nat.ltb_ge; lia).
  cbn [orb]. rewrite firstn_app, Nat.sub_diag, firstn_all, app_nil_r.
  assert (Fa : Forall (fun c => 33 <= c <= 126) a).
  { rewrite Forall_forall in *. intros c Hc'. apply lower_range. apply Hh. rewrite <- Ea. apply in_map; auto. }
  replace (hrp_chars_ok a) with true by (symmetry; apply hrp_chars_Forall; auto). cbn [negb].
  rewrite to_lower_ascii by auto. rewrite Es.
  assert (Esl : slice (hl ++ 49 :: cs) (length a + 1) (length (hl ++ 49 :: cs)) = Ok cs).
  { pose proof (slice_ok (hl ++ [49]) cs []) as S. rewrite app_nil_r, <- app_assoc in S. cbn [app] in S.
    rewrite <- S. f_equal; rewrite ?app_length; cbn [length]; lia. }
  rewrite Esl. cbn [bind]. rewrite Hc. cbn [bind].
  unfold verifyChecksum. rewrite hrpExpand_ascii by (apply hrp_ascii; auto). rewrite Ea.
  rewrite <- La. rewrite firstn_app, Nat.sub_diag, firstn_all, app_nil_r.
  destruct (polymod (expand hl ++ w) =? 1); cbn [negb]; [| reflexivity].
  replace ((length w <? 6)%nat) with false by (symmetry; apply Nat.ltb_ge; lia). reflexivity.
Qed.

(** Everything Decode accepts has that shape. *)
Lemma decode_inv s hrp data : ascii_only s = true -> decode s = Ok (hrp, data) ->
  exists hl cs w,
    (to_lower s = s \/ to_upper s = s) /\ map lower_byte s = hl ++ 49 :: cs /\ hl <> [] /\
    Forall (fun c => 33 <= c <= 126) hl /\ map lower_byte hl = hl /\
    from_chars cs = Ok w /\ (6 <= length w)%nat /\ polymod (expand hl ++ w) = 1 /\
    hrp = firstn (length hl) s /\ map lower_byte hrp = hl /\
    convertBits (firstn (length w - 6) w) 5 8 false = Ok data.
Proof.
  intros As H. unfold decode in H.
  destruct (negb (bytes_eqb (to_lower s) s) && negb (bytes_eqb (to_upper s) s)) eqn:Mix; [discriminate |].
  assert (Case : to_lower s = s \/ to_upper s = s).
  { apply andb_false_iff in Mix. rewrite !negb_false_iff, !bytes_eqb_eq in Mix. tauto. }
  destruct (last_index s 49) as [pos |] eqn:Pos; [| discriminate].
  destruct ((pos <? 1) || (length s <? pos + 7))%nat eqn:Bnd; [discriminate |].
  apply orb_false_iff in Bnd as [B1 B2]. apply Nat.ltb_ge in B1, B2.
  destruct (hrp_chars_ok (firstn pos s)) eqn:Hc; cbn [negb] in H; [| discriminate].
  apply last_index_inv in Pos as (a & b & -> & <- & Nb).
  rewrite firstn_app, Nat.sub_diag, firstn_all, app_nil_r in *. cbn [firstn] in *. rewrite ?app_nil_r in *.
  rewrite to_lower_ascii in H by auto.
  rewrite map_app in H. cbn [map] in H. change (lower_byte 49) with 49 in H.
  assert (Esl : slice (map lower_byte a ++ 49 :: map lower_byte b) (length a + 1)
                 (length (map lower_byte a ++ 49 :: map lower_byte b)) = Ok (map lower_byte b)).
  { pose proof (slice_ok (map lower_byte a ++ [49]) (map lower_byte b) []) as S.
    rewrite app_nil_r, <- app_assoc in S. cbn [app] in S. rewrite <- S.
    f_equal; rewrite ?app_length, ?map_length; cbn [length]; rewrite ?map_length; lia. }
  rewrite Esl in H. cbn [bind] in H. apply bind_ok in H as (w & Hw & H).
  destruct (verifyChecksum a w) eqn:V; cbn [negb] in H; [| discriminate].
  destruct (length w <? 6)%nat eqn:L6; [discriminate |]. apply Nat.ltb_ge in L6.
  apply bind_ok in H as (p & Hp & H). injection H as <- <-.
  apply hrp_chars_Forall in Hc.
  exists (map lower_byte a), (map lower_byte b), w.
  repeat split; auto.
  - rewrite map_app. reflexivity.
  - destruct a; [cbn in B1; lia | discriminate].
  - apply Forall_map. eapply Forall_impl; [| exact Hc]. cbn. intros c. apply lower_range.
  - apply map_map_id. apply lower_idem.
  - unfold verifyChecksum in V. rewrite hrpExpand_ascii in V by (apply hrp_ascii; auto). lia.
  - rewrite map_length, firstn_app, Nat.sub_diag, firstn_all. cbn. rewrite app_nil_r. reflexivity.
Qed.

(** A string equal to its own lower-case form is only accepted if it is ASCII. *)
Lemma from_chars_ascii cs : forall v, from_chars cs = Ok v -> ascii_only cs = true.
Proof.
  intros v H. apply from_chars_inv in H as (_ & _ & _ & F). apply ascii_only_Forall.
  eapply Forall_impl; [| exact F]. cbn. lia.
Qed.

Lemma decode_lower_ascii s r : to_lower s = s -> decode s = Ok r -> ascii_only s = true.
Proof.
  intros Hl H. unfold decode in H.
  destruct (negb _ && negb _); [discriminate |].
  destruct (last_index s 49) as [pos |] eqn:Pos; [| discriminate].
  destruct ((pos <? 1) || (length s <? pos + 7))%nat eqn:Bnd; [discriminate |].
  destruct (hrp_chars_ok (firstn pos s)) eqn:Hc; cbn [negb] in H; [| discriminate].
  apply bind_ok in H as (rest & Hr & H). apply bind_ok in H as (w & Hw & _).
  rewrite Hl in Hr. apply from_chars_ascii in Hw.
  apply last_index_inv in Pos as (a & b & -> & <- & Nb).
  rewrite firstn_app, Nat.sub_diag, firstn_all in Hc. cbn in Hc. rewrite app_nil_r in Hc.
  pose proof (slice_ok (a ++ [49]) b []) as S. rewrite app_nil_r, <- app_assoc in S. cbn [app] in S.
  assert (E : slice (a ++ 49 :: b) (length a + 1) (length (a ++ 49 :: b)) = Ok b).
  { rewrite <- S. f_equal; rewrite ?app_length; cbn [length]; lia. }
  rewrite E in Hr. injection Hr as <-.
  apply hrp_chars_Forall, hrp_ascii in Hc.
  unfold ascii_only in *. rewrite forallb_app. cbn [forallb]. rewrite Hc, Hw. reflexivity.
Qed.

(** What Encode returns. *)
Lemma encode_spec hrp data v : bytes_ok data -> hrp <> [] ->
  Forall (fun c => 33 <= c <= 126) hrp ->
  (map upper_byte hrp = hrp \/ map lower_byte hrp = hrp) ->
  convertBits data 8 5 true = Ok v ->
  exists chk cs,
    length chk = 6%nat /\ grp 5 chk /\ polymod (expand (map lower_byte hrp) ++ (v ++ chk)) = 1 /\
    to_chars (v ++ chk) = Ok cs /\
    encode hrp data =
      Ok (if bytes_eqb (map lower_byte hrp) hrp then map lower_byte hrp ++ 49 :: cs
          else map upper_byte (map lower_byte hrp ++ 49 :: cs)).
Proof.
  intros Hd Nh Hh Case Ev.
  destruct (convert_8_5_8 _ _ Hd Ev) as [Gv _].
  set (hl := map lower_byte hrp).
  assert (Hl : Forall (fun c => 33 <= c <= 126) hl).
  { apply Forall_map. eapply Forall_impl; [| exact Hh]. cbn. intros c. apply lower_range. }
  assert (Ah : ascii_only hrp = true) by (apply hrp_ascii; auto).
  assert (Al : ascii_only hl = true) by (apply hrp_ascii; auto).
  assert (Ge : grp 5 (expand hl)) by (apply expand_grp; auto).
  assert (Idem : map lower_byte hl = hl) by (apply map_map_id, lower_idem).
  set (m := Z.lxor (polymod ((expand hl ++ v) ++ repeat 0 6)) 1).
  assert (Hm : in30 m).
  { apply lxor_range; try lia. apply reg_range; [apply in30_1 |]. apply Forall_app.
    split; [apply Forall_app; auto | apply grp_zeros]. }
  destruct (chk_digits_ok m Hm) as (Gc & Lc & _).
  assert (Ec : createChecksum hl v = chk_digits m).
  { unfold createChecksum. rewrite hrpExpand_ascii, Idem by auto. rewrite app_assoc. reflexivity. }
  destruct (to_chars_ok v Gv) as (c1 & T1 & L1 & F1 & A1).
  destruct (to_chars_ok (chk_digits m) Gc) as (c2 & T2 & L2 & F2 & A2).
  exists (chk_digits m), (c1 ++ c2).
  assert (Tapp : forall a b x y, to_chars a = Ok x -> to_chars b = Ok y -> to_chars (a ++ b) = Ok (x ++ y)).
  { clear. induction a as [| d a IH]; intros b x y Ha Hb; cbn [to_chars] in Ha.
    - injection Ha as <-. exact Hb.
    - cbn [app to_chars]. destruct (index charset (Z.to_nat d)); cbn [bind] in *; try discriminate.
      apply bind_ok in Ha as (l & El & E2). injection E2 as <-.
      rewrite (IH b l y El Hb). reflexivity. }
  repeat split; auto.
  - rewrite app_assoc. apply checksum_unique; auto. apply Forall_app; auto.
  - unfold encode. rewrite Ev. cbn [bind].
    replace ((length hrp <? 1)%nat) with false
      by (symmetry; apply Nat.ltb_ge; destruct hrp; [contradiction | cbn; lia]).
    replace (hrp_chars_ok hrp) with true by (symmetry; apply hrp_chars_Forall; auto). cbn [negb].
    rewrite !to_upper_ascii, !to_lower_ascii by auto. fold hl.
    replace (negb (bytes_eqb (map upper_byte hrp) hrp) && negb (bytes_eqb hl hrp)) with false.
    2:{ symmetry. apply andb_false_iff. rewrite !negb_false_iff, !bytes_eqb_eq. exact Case. }
    rewrite T1. cbn [bind]. rewrite Ec, T2. cbn [bind].
    change (str "1") with [49]. cbn [app].
    destruct (bytes_eqb hl hrp); [reflexivity |].
    rewrite to_upper_ascii; [reflexivity |].
    unfold ascii_only in *. rewrite forallb_app. rewrite Al. cbn [forallb andb].
    change (49 <? 128) with true. rewrite forallb_app.
    apply from_chars_ascii in F1, F2. unfold ascii_only in F1, F2. rewrite F1, F2. reflexivity.
Qed.

(** Round trip. *)
Lemma bech32_roundtrip hrp data : bytes_ok data -> hrp <> [] ->
  Forall (fun c => 33 <= c <= 126) hrp ->
  (map upper_byte hrp = hrp \/ map lower_byte hrp = hrp) ->
  exists s, encode hrp data = Ok s /\ decode s = Ok (hrp, data).
Proof.
  intros Hd Nh Hh Case.
  destruct (convert_8_5_ok data Hd) as [v Ev].
  destruct (convert_8_5_8 _ _ Hd Ev) as [Gv Back].
  destruct (encode_spec hrp data v Hd Nh Hh Case Ev) as (chk & cs & L6 & Gc & P1 & T & E).
  set (hl := map lower_byte hrp) in *.
  assert (Hl : Forall (fun c => 33 <= c <= 126) hl).
  { apply Forall_map. eapply Forall_impl; [| exact Hh]. cbn. intros c. apply lower_range. }
  assert (Nl : hl <> []) by (unfold hl; destruct hrp; [contradiction | discriminate]).
  assert (Idem : map lower_byte hl = hl) by (apply map_map_id, lower_idem).
  destruct (to_chars_ok (v ++ chk) ltac:(apply Forall_app; auto)) as (cs' & T' & L' & F' & A').
  rewrite T in T'. injection T' as <-.
  assert (Ecs : map lower_byte cs = cs).
  { rewrite <- (map_id cs) at 2. apply map_ext_in. rewrite Forall_forall in A'. intros c Ic. apply A' in Ic. tauto. }
  assert (Eall : map lower_byte (hl ++ 49 :: cs) = hl ++ 49 :: cs).
  { rewrite map_app. cbn [map]. rewrite Idem, Ecs. reflexivity. }
  assert (Acs : ascii_only (hl ++ 49 :: cs) = true).
  { unfold ascii_only. rewrite forallb_app. cbn [forallb].
    pose proof (hrp_ascii hl Hl) as A1. apply from_chars_ascii in F'. unfold ascii_only in *. rewrite A1, F'. reflexivity. }
  assert (Fin : firstn (length (v ++ chk) - 6) (v ++ chk) = v).
  { rewrite app_length, L6. replace (length v + 6 - 6)%nat with (length v) by lia.
    rewrite firstn_app, Nat.sub_diag, firstn_all. cbn. apply app_nil_r. }
  assert (L66 : (6 <= length (v ++ chk))%nat) by (rewrite app_length; lia).
  destruct (bytes_eqb hl hrp) eqn:Low.
  - apply bytes_eqb_eq in Low.
    exists (hl ++ 49 :: cs). split; [exact E |].
    rewrite (decode_shape _ hl cs (v ++ chk)); auto.
    + rewrite P1. cbn [Z.eqb Pos.eqb]. rewrite Fin, Back. cbn [bind].
      rewrite firstn_app, Nat.sub_diag, firstn_all. cbn [firstn]. rewrite app_nil_r, Low. reflexivity.
    + left. rewrite to_lower_ascii by auto. exact Eall.
  - apply bytes_eqb_neq in Low.
    assert (Up : map upper_byte hrp = hrp) by (destruct Case; [auto | contradiction]).
    exists (map upper_byte (hl ++ 49 :: cs)). split; [exact E |].
    rewrite (decode_shape _ hl cs (v ++ chk)); auto.
    + rewrite P1. cbn [Z.eqb Pos.eqb]. rewrite Fin, Back. cbn [bind].
      rewrite map_app. replace (length hl) with (length (map upper_byte hl)) by apply map_length.
      rewrite firstn_app, Nat.sub_diag, firstn_all. cbn [firstn]. rewrite app_nil_r.
      replace (map upper_byte hl) with hrp; [reflexivity |].
      unfold hl. rewrite map_map. rewrite <- Up at 1. apply map_ext. intros. symmetry. apply upper_lower.
    + rewrite ascii_map_upper. auto.
    + right. rewrite to_upper_ascii by (rewrite ascii_map_upper; auto). apply map_map_id, upper_idem.
    + rewrite map_map. rewrite <- Eall at 2. apply map_ext. intros. apply lower_upper.
Qed.

(** No malleability: an accepted ASCII string is the encoding of its result, up to letter case. *)
Lemma bech32_canonical s hrp data : ascii_only s = true -> decode s = Ok (hrp, data) ->
  bytes_ok data /\ exists s', encode hrp data = Ok s' /\ map lower_byte s' = map lower_byte s /\
  (map lower_byte s = s -> s' = s) /\ (map upper_byte s = s -> map lower_byte hrp <> hrp -> s' = s).
Proof.
  intros As H.
  destruct (decode_inv s hrp data As H) as
    (hl & cs & w & Case & Es & Nh & Hh & Hll & Fc & L6 & P & Eh & Ehl & Cv).
  destruct (from_chars_inv _ _ Fc) as (Gw & Lw & Tw & Aw).
  set (v := firstn (length w - 6) w) in *.
  set (chk := skipn (length w - 6) w).
  assert (Ew : w = v ++ chk) by (symmetry; apply firstn_skipn).
  rewrite Ew in Gw. apply Forall_app in Gw as [Gv Gc].
  destruct (convert_5_8_5 v data Gv Cv) as [Bd Ev]. split; auto.
  assert (Lc : length chk = 6%nat) by (unfold chk; rewrite skipn_length; lia).
  assert (Nhrp : hrp <> []) by (intros ->; cbn in Ehl; congruence).
  assert (Hhrp : Forall (fun c => 33 <= c <= 126) hrp).
  { rewrite Forall_forall in *. intros c Ic. apply lower_range. apply Hh. rewrite <- Ehl. apply in_map; auto. }
  assert (Csh : map upper_byte hrp = hrp \/ map lower_byte hrp = hrp).
  { rewrite to_lower_ascii, to_upper_ascii in Case by auto.
    destruct Case as [Cl | Cu]; [right | left]; rewrite Eh; rewrite <- firstn_map; congruence. }
  destruct (encode_spec hrp data v Bd Nhrp Hhrp Csh Ev) as (chk' & cs' & Lc' & Gc' & P' & T' & E').
  rewrite Ehl in *.
  assert (chk' = chk).
  { rewrite Ew in P. rewrite app_assoc in P, P'.
    assert (Ge : grp 5 (expand hl ++ v)) by (apply Forall_app; split; auto; apply expand_grp; auto).
    apply (checksum_unique _ _ Ge Lc Gc) in P. apply (checksum_unique _ _ Ge Lc' Gc') in P'. congruence. }
  subst chk'. rewrite <- Ew, Tw in T'. injection T' as <-.
  rewrite <- Es in E'.
  assert (Elow : map lower_byte (map lower_byte s) = map lower_byte s) by (apply map_map_id, lower_idem).
  eexists. split; [exact E' |].
  destruct (bytes_eqb hl hrp) eqn:Low.
  - apply bytes_eqb_eq in Low. repeat split; auto. intros _ N. contradiction.
  - apply bytes_eqb_neq in Low. repeat split.
    + rewrite !map_map. apply map_ext. intros c. rewrite lower_upper. apply lower_idem.
    + intros Ls. exfalso. apply Low. rewrite <- Ehl, Eh, <- firstn_map, Ls. reflexivity.
    + intros Us _. rewrite map_map. rewrite <- Us at 2. apply map_ext. intros. apply upper_lower.
Qed.

End Uni.
