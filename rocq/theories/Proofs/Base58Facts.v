(** Base58: the text of a byte string is unique and decoding inverts encoding. *)
From Verif.Model Require Import Base Bech32 Base58.
From Verif.Spec Require Import Base58Spec.
From Verif.Proofs Require Import Util.

Lemma pos_value_bev base l : pos_value base l = bev base l.
Proof. induction l as [| d l IH]; [reflexivity |]. cbn [pos_value]. rewrite bev_cons, IH. reflexivity. Qed.

Definition in_base (b : Z) (l : list Z) : Prop := Forall (fun d => 0 <= d < b) l.
Definition no_lead (l : list Z) : Prop := nth 0 l 1 <> 0.

Lemma digits_aux_spec base : 2 <= base -> forall fuel x acc, 0 <= x < 2 ^ Z.of_nat fuel ->
  exists d, digits_aux fuel base x acc = d ++ acc /\ in_base base d /\ bev base d = x /\ no_lead d.
Proof.
  intros Hb. induction fuel as [| f IH]; intros x acc Hx.
  - exists []. cbn in *. repeat split; [constructor | lia | unfold no_lead; cbn; lia].
  - cbn [digits_aux]. destruct (Z.leb_spec x 0).
    + exists []. repeat split; [constructor | unfold bev; cbn; lia | unfold no_lead; cbn; lia].
    + rewrite Nat2Z.inj_succ, Z.pow_succ_r in Hx by lia.
      assert (Hd : 0 <= x / base < 2 ^ Z.of_nat f).
      { split; [apply Z.div_pos; lia |]. apply Z.div_lt_upper_bound; nia. }
      destruct (IH (x / base) (x mod base :: acc) Hd) as (d & E & R & V & N).
      pose proof (Z.mod_pos_bound x base ltac:(lia)). pose proof (Z.div_mod x base ltac:(lia)).
      exists (d ++ [x mod base]). rewrite E, <- app_assoc. split; [reflexivity |]. split; [| split].
      * apply Forall_app. split; auto.
      * rewrite bev_snoc, V. lia.
      * unfold no_lead in *. destruct d as [| y d]; cbn [app nth] in *; [| auto].
        unfold bev in V. cbn in V. rewrite <- V in *. lia.
Qed.

Lemma digits_spec base x : 2 <= base -> 0 <= x ->
  in_base base (digits base x) /\ bev base (digits base x) = x /\ no_lead (digits base x).
Proof.
  intros Hb Hx. unfold digits.
  destruct (digits_aux_spec base Hb (Z.to_nat (Z.log2 x + 1)) x []) as (d & E & R).
  - split; auto. pose proof (Z.log2_nonneg x). rewrite Z2Nat.id by lia. 
    destruct (Z.eq_dec x 0) as [-> | N]; [apply Z.pow_pos_nonneg; lia |].
    replace (Z.log2 x + 1) with (Z.succ (Z.log2 x)) by lia. apply Z.log2_spec. lia.
  - rewrite app_nil_r in E. rewrite E. exact R.
Qed.

Lemma no_lead_lower b l : 1 < b -> in_base b l -> no_lead l -> l <> [] -> b ^ (zlen l - 1) <= bev b l.
Proof.
  intros Hb R N NE. destruct l as [| x l]; [contradiction |]. unfold no_lead in N. cbn in N.
  inversion R; subst. rewrite bev_cons, zlen_cons. replace (1 + zlen l - 1) with (zlen l) by lia.
  pose proof (bev_range b l ltac:(lia) H2). assert (0 < b ^ zlen l) by (apply Z.pow_pos_nonneg; unfold zlen; lia). nia.
Qed.

Lemma digits_unique b l1 l2 : 1 < b -> in_base b l1 -> in_base b l2 -> no_lead l1 -> no_lead l2 ->
  bev b l1 = bev b l2 -> l1 = l2.
Proof.
  intros Hb R1 R2 N1 N2 E.
  pose proof (bev_range b l1 ltac:(lia) R1). pose proof (bev_range b l2 ltac:(lia) R2).
  assert (L : forall l l', in_base b l -> in_base b l' -> no_lead l -> no_lead l' -> bev b l = bev b l' -> (length l <= length l')%nat).
  { intros l l' R R' N N' E'. destruct l as [| x l]; [cbn; lia |].
    pose proof (no_lead_lower b (x :: l) Hb R N ltac:(discriminate)) as Lo.
    pose proof (bev_range b l' ltac:(lia) R') as Hi. rewrite E' in Lo.
    assert (b ^ (zlen (x :: l) - 1) < b ^ zlen l') as P by lia.
    apply Z.pow_lt_mono_r_iff in P; unfold zlen in *; cbn [length] in *; lia. }
  apply (bev_inj b); auto.
  pose proof (L l1 l2 R1 R2 N1 N2 E). pose proof (L l2 l1 R2 R1 N2 N1 (eq_sym E)). lia.
Qed.

(** ** The alphabet *)
Definition char_of (d : Z) : Z := nth (Z.to_nat d) b58_alphabet 0.

Lemma char_sweep : forallb (fun d => (b58_digit (char_of d) =? d) &&
    match index_of b58_alphabet (char_of d) with Some e => e =? d | None => false end &&
    Bool.eqb (char_of d =? 49) (d =? 0)) (zrange 58) = true.
Proof. vm_compute. reflexivity. Qed.

Lemma char_of_ok d : 0 <= d < 58 ->
  b58_digit (char_of d) = d /\ index_of b58_alphabet (char_of d) = Some d /\ (char_of d = 49 <-> d = 0) /\ b58_char (char_of d).
Proof.
  intros Hd.
  assert (C : forallb (fun d => let c := char_of d in
     (((49 <=? c) && (c <=? 57)) || ((65 <=? c) && (c <=? 90)) || ((97 <=? c) && (c <=? 122))) && negb (c =? 73) && negb (c =? 79) && negb (c =? 108)) (zrange 58) = true) by (vm_compute; reflexivity).
  pose proof (sweep 58 _ char_sweep d Hd) as S. cbn beta in S. apply (sweep 58 _ C) in Hd. cbn zeta beta in Hd.
  rewrite !andb_true_iff in S. destruct S as [[S1 S2] S3].
  destruct (index_of b58_alphabet (char_of d)) as [e |]; [| discriminate].
  apply Z.eqb_eq in S1, S2. subst e. apply eqb_prop in S3. split; auto. split; auto. split; [lia |].
  unfold b58_char. lia.
Qed.

Lemma index_char c : b58_char c -> index_of b58_alphabet c = Some (b58_digit c) /\ 0 <= b58_digit c < 58 /\ char_of (b58_digit c) = c.
Proof.
  intros H.
  assert (C : forallb (fun c =>
     implb ((((49 <=? c) && (c <=? 57)) || ((65 <=? c) && (c <=? 90)) || ((97 <=? c) && (c <=? 122))) && negb (c =? 73) && negb (c =? 79) && negb (c =? 108))
      (match index_of b58_alphabet c with Some e => e =? b58_digit c | None => false end && (0 <=? b58_digit c) && (b58_digit c <? 58) && (char_of (b58_digit c) =? c)))
      (zrange 123) = true) by (vm_compute; reflexivity).
  assert (R : 0 <= c < 123) by (unfold b58_char in H; lia).
  apply (sweep 123 _ C) in R. cbn beta in R.
  match type of R with implb ?p _ = true => assert (P : p = true) by (unfold b58_char in H; lia); rewrite P in R end.
  cbn [implb] in R. destruct (index_of b58_alphabet c) as [e |]; [| discriminate]. 
  rewrite !andb_true_iff in R. destruct R as [[[R1 R2] R3] R4]. apply Z.eqb_eq in R1, R4. subst e. split; auto. split; [lia | auto].
Qed.

Lemma index_of_char_of c d : index_of b58_alphabet c = Some d -> 0 <= d < 58 /\ char_of d = c.
Proof.
  intros H. assert (G : forall l, index_of l c = Some d -> 0 <= d < Z.of_nat (length l) /\ nth (Z.to_nat d) l 0 = c).
  { clear H. intros l. revert d. induction l as [| x l IH]; intros d H; cbn [index_of] in H; [discriminate |].
    destruct (Z.eqb_spec x c).
    - injection H as <-. subst. cbn [length]. split; [lia | reflexivity].
    - destruct (index_of l c) as [e |]; [| discriminate]. cbn in H. injection H as <-.
      destruct (IH e eq_refl) as [R N]. cbn [length]. split; [lia |].
      replace (Z.to_nat (e + 1)) with (S (Z.to_nat e)) by lia. exact N. }
  apply G in H. exact H.
Qed.

Lemma count_leading_split z l : exists r, l = repeat z (count_leading z l) ++ r /\ nth 0 r (z + 1) <> z.
Proof.
  induction l as [| x l (r & E & N)]; cbn [count_leading].
  - exists []. split; [reflexivity | cbn; lia].
  - destruct (Z.eqb_spec x z).
    + subst. exists r. split; auto. cbn [repeat app]. rewrite <- E. reflexivity.
    + exists (x :: l). split; [reflexivity | cbn; auto].
Qed.
Lemma count_leading_app z k r : nth 0 r (z + 1) <> z -> count_leading z (repeat z k ++ r) = k.
Proof.
  intros N. induction k as [| k IH]; cbn [repeat app count_leading].
  - destruct r as [| x r]; [reflexivity |]. cbn in *. destruct (Z.eqb_spec x z); [contradiction | reflexivity].
  - rewrite Z.eqb_refl. f_equal. exact IH.
Qed.

Lemma bev_zeros b k l : bev b (repeat 0 k ++ l) = bev b l.
Proof. induction k as [| k IH]; [reflexivity |]. cbn [repeat app]. rewrite bev_cons, IH. lia. Qed.

Lemma b58_values_map l : in_base 58 l -> b58_values (map char_of l) = Some l.
Proof.
  induction 1 as [| d l Hd _ IH]; [reflexivity |]. cbn [map b58_values].
  destruct (char_of_ok d Hd) as (_ & -> & _). rewrite IH. reflexivity.
Qed.
Lemma b58_values_inv s : forall l, b58_values s = Some l -> in_base 58 l /\ s = map char_of l.
Proof.
  induction s as [| c s IH]; intros l E; cbn [b58_values] in E.
  - injection E as <-. split; [constructor | reflexivity].
  - destruct (index_of b58_alphabet c) as [d |] eqn:I; [| discriminate].
    destruct (b58_values s) as [ds |]; [| discriminate]. injection E as <-.
    apply index_of_char_of in I as [R C]. destruct (IH ds eq_refl) as [Rs Es].
    split; [constructor; auto |]. cbn [map]. rewrite C, <- Es. reflexivity.
Qed.
Lemma b58_values_repeat k : map char_of (repeat 0 k) = repeat 49 k.
Proof. induction k; cbn [repeat map]; [reflexivity |]. f_equal. auto. Qed.

Lemma no_lead_alt l d : no_lead l -> d <> 0 -> nth 0 l d <> 0.
Proof. unfold no_lead. destruct l; cbn; auto. Qed.
Lemma nth_alt (l : list Z) z : nth 0 l (z + 1) <> z -> forall d, d <> z -> nth 0 l d <> z.
Proof. destruct l; cbn; auto. Qed.

Lemma map_char_lead l : in_base 58 l -> no_lead l -> forall d, d <> 49 -> nth 0 (map char_of l) d <> 49.
Proof.
  intros R N d Hd. destruct l as [| x l]; cbn; auto. inversion R; subst. unfold no_lead in N. cbn in N.
  intros E. apply char_of_ok in E; auto.
Qed.
Lemma lead_map_char l : in_base 58 l -> nth 0 (map char_of l) 50 <> 49 -> no_lead l.
Proof.
  intros R N. destruct l as [| x l]; unfold no_lead; cbn in *; [lia |]. inversion R; subst.
  intros ->. apply N. reflexivity.
Qed.

(** Encoding gives the base58 text, decoding any base58 text gives the bytes. *)
Lemma encode_text b : bytes_ok b -> b58_text (b58_encode b) b.
Proof.
  intros B. destruct (count_leading_split 0 b) as (r & E & N). set (k := count_leading 0 b) in *.
  assert (Br : in_base 256 r) by (rewrite E in B; apply bytes_ok_app in B; apply B).
  assert (V : be_value 256 b = bev 256 r) by (change (be_value 256 b) with (bev 256 b); rewrite E; apply bev_zeros).
  pose proof (bev_range 256 r ltac:(lia) Br) as P.
  destruct (digits_spec 58 (bev 256 r) ltac:(lia) ltac:(lia)) as (Rd & Vd & Nd).
  exists k, (map char_of (digits 58 (bev 256 r))), r. split; [| split; [exact E |]].
  - unfold b58_encode. fold k. rewrite V. reflexivity.
  - split; [| split; [apply map_char_lead; auto; lia | split; [exact (nth_alt r 0 N 1 ltac:(lia)) |]]].
    + intros x Hx. apply in_map_iff in Hx as (d & <- & Hd). unfold in_base in Rd. rewrite Forall_forall in Rd. apply char_of_ok; auto.
    + rewrite !pos_value_bev. rewrite map_map. 
      replace (map (fun x => b58_digit (char_of x)) (digits 58 (bev 256 r))) with (digits 58 (bev 256 r)); auto.
      rewrite <- (map_id (digits 58 (bev 256 r))) at 1. apply map_ext_in. intros d Hd. unfold in_base in Rd. rewrite Forall_forall in Rd.
      symmetry. apply char_of_ok; auto.
Qed.

Lemma decode_text s b : bytes_ok b -> b58_text s b -> b58_decode s = b.
Proof.
  intros B (k & t & c & -> & -> & Ct & Nt & Nc & V).
  apply bytes_ok_app in B as [_ Bc].
  set (ds := map b58_digit t) in *.
  assert (Rd : in_base 58 ds).
  { apply Forall_forall. intros d Hd. apply in_map_iff in Hd as (x & <- & Hx). apply Ct in Hx. apply index_char; auto. }
  assert (Et : t = map char_of ds).
  { unfold ds. rewrite map_map. rewrite <- (map_id t) at 1. apply map_ext_in. intros x Hx. symmetry. apply index_char. auto. }
  assert (R0 : in_base 58 (repeat 0 k)) by (apply Forall_forall; intros x Hx; apply repeat_spec in Hx; lia).
  unfold b58_decode. rewrite count_leading_app by (destruct t; cbn in *; auto; lia).
  rewrite Et, <- b58_values_repeat, <- map_app, b58_values_map by (apply Forall_app; split; auto).
  change (be_value 58 (repeat 0 k ++ ds)) with (bev 58 (repeat 0 k ++ ds)). rewrite bev_zeros.
  f_equal. rewrite !pos_value_bev in V. rewrite V.
  pose proof (bev_range 256 c ltac:(lia) Bc) as P.
  destruct (digits_spec 256 (bev 256 c) ltac:(lia) ltac:(lia)) as (Rx & Vx & Nx).
  apply (digits_unique 256); auto. lia.
Qed.

Lemma b58_roundtrip b : bytes_ok b -> b58_decode (b58_encode b) = b.
Proof. intros B. apply decode_text; auto. apply encode_text; auto. Qed.

(** Decoding is exact on base58 text. *)
Lemma b58_decode_text s : (forall c, In c s -> b58_char c) -> bytes_ok (b58_decode s) /\ b58_encode (b58_decode s) = s.
Proof.
  intros C. unfold b58_decode.
  destruct (b58_values s) as [ds |] eqn:E.
  2:{ exfalso. revert E. induction s as [| c s IH]; cbn [b58_values]; [discriminate |].
      destruct (index_char c (C c (or_introl eq_refl))) as [-> _].
      destruct (b58_values s); [discriminate |]. intros _. apply IH; auto. intros x Hx. apply C. right. exact Hx. }
  apply b58_values_inv in E as [R ->].
  destruct (count_leading_split 49 (map char_of ds)) as (t & Et & Nt). set (k := count_leading 49 (map char_of ds)) in *.
  assert (Ed : ds = repeat 0 k ++ skipn k ds /\ t = map char_of (skipn k ds)).
  { clearbody k. clear C. revert k Et. induction R as [| d ds Hd R IH]; intros k Et; cbn [map] in *.
    - destruct k; [cbn in *; subst; auto | discriminate].
    - destruct k as [| k]; [cbn in *; subst; auto |]. cbn [repeat app] in Et. injection Et as E1 E2.
      destruct (IH k E2) as [I1 I2]. cbn [skipn repeat app]. split; auto. rewrite <- I1. f_equal. apply char_of_ok in E1; auto. }
  destruct Ed as [Ed Ett]. clearbody k. generalize dependent (skipn k ds). intros dt Ed Ett. subst ds.
  assert (Rt : in_base 58 dt) by (apply Forall_app in R; apply R).
  change (be_value 58) with (bev 58). rewrite bev_zeros.
  pose proof (bev_range 58 dt ltac:(lia) Rt) as P.
  destruct (digits_spec 256 (bev 58 dt) ltac:(lia) ltac:(lia)) as (Rx & Vx & Nx).
  split.
  - apply bytes_ok_app. split; auto. apply Forall_forall. intros x Hx. apply repeat_spec in Hx. subst. unfold is_byte. lia.
  - unfold b58_encode. rewrite count_leading_app by (apply no_lead_alt; auto; lia).
    change (be_value 256) with (bev 256). rewrite bev_zeros, Vx. rewrite Et. f_equal.
    rewrite Ett. change (fun d => nth (Z.to_nat d) b58_alphabet 0) with char_of. f_equal.
    pose proof (digits_spec 58 (bev 58 dt) ltac:(lia) ltac:(lia)) as (Ry & Vy & Ny).
    apply (digits_unique 58); auto; [lia |]. apply lead_map_char; auto. rewrite <- Ett. exact Nt.
Qed.

Lemma b58_decode_bad s c : In c s -> ~ b58_char c -> b58_decode s = [].
Proof.
  intros H N. unfold b58_decode. destruct (b58_values s) as [ds |] eqn:E; [| reflexivity].
  apply b58_values_inv in E as [R ->]. exfalso. apply in_map_iff in H as (d & <- & Hd).
  unfold in_base in R. rewrite Forall_forall in R. apply N, char_of_ok. auto.
Qed.
