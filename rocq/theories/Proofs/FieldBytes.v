(** Decoding and encoding of field elements; inversion and the power (p-5)/8. *)
From Verif.Model Require Import Base Limb EdwardsTable EdwardsCode Edwards.
From Verif.Spec Require Import EdSpec.
From Verif.Proofs Require Import Util LimbFacts RadixFacts FieldFacts FieldEl.

(** ** FeFromBytes *)
Lemma mod_mul_mod a b c : 0 < b -> 0 < c -> (a mod (b * c)) mod b = a mod b.
Proof. intros B C. rewrite Z.rem_mul_r by lia. rewrite (Z.mul_comm b), Z.mod_add by lia. apply Z.mod_mod. lia. Qed.
Lemma i64_small x : - 2 ^ 63 <= x < 2 ^ 63 -> i64 x = x.
Proof. intros H. unfold i64. pows. rewrite Z.mod_small by lia. lia. Qed.
Definition frombytes_Q : list itv := let r k s := (0, (2 ^ k - 1) * 2 ^ s) in [r 32 0; r 24 6; r 24 5; r 24 3; r 24 2; r 32 0; r 24 7; r 24 5; r 24 4; r 23 2].
Theorem FeFromBytes_spec s : bytes_ok s -> length s = 32%nat -> fb 101 (FeFromBytes s) /\ feF (FeFromBytes s) = of_Z (le_value s mod 2 ^ 255).
Proof.
  intros B L. unfold FeFromBytes. set (V := le_value s).
  assert (V4 : forall o, load4 (skipn o s) = (V / 2 ^ (8 * Z.of_nat o)) mod 2 ^ 32) by (intros o; exact (load_val 4 o s B (or_intror eq_refl))).
  assert (V3 : forall o, load3 (skipn o s) = (V / 2 ^ (8 * Z.of_nat o)) mod 2 ^ 24) by (intros o; exact (load_val 3 o s B (or_introl eq_refl))).
  change (load4 s) with (load4 (skipn 0 s)). rewrite !V4, !V3. rewrite !Z.shiftl_mul_pow2 by lia.
  change (8 * Z.of_nat 0) with 0. change (8 * Z.of_nat 4) with 32. change (8 * Z.of_nat 7) with 56. change (8 * Z.of_nat 10) with 80. change (8 * Z.of_nat 13) with 104. change (8 * Z.of_nat 16) with 128. change (8 * Z.of_nat 20) with 160. change (8 * Z.of_nat 23) with 184. change (8 * Z.of_nat 26) with 208. change (8 * Z.of_nat 29) with 232.
  rewrite Z.div_1_r. rewrite (Z.land_comm _ 8388607), (Z.land_comm 8388607). change 8388607 with (2 ^ 23 - 1). rewrite land_ones_mod by lia.
  assert (VR : 0 <= V < 2 ^ 256). { pose proof (le_value_range _ B) as R. rewrite L in R. exact R. }
  assert (D : forall a b, 0 <= a -> 0 <= b -> V / 2 ^ (a + b) = V / 2 ^ a / 2 ^ b). { intros a b A Bb. rewrite Z.pow_add_r by lia. symmetry. apply Z.div_div; [apply Z.pow_nonzero; lia | apply Z.pow_pos_nonneg; lia]. }
  assert (D1 : V / 2 ^ 56 = V / 2 ^ 32 / 2 ^ 24) by (exact (D 32 24 ltac:(lia) ltac:(lia))). assert (D2 : V / 2 ^ 80 = V / 2 ^ 56 / 2 ^ 24) by (exact (D 56 24 ltac:(lia) ltac:(lia))). assert (D3 : V / 2 ^ 104 = V / 2 ^ 80 / 2 ^ 24) by (exact (D 80 24 ltac:(lia) ltac:(lia))). assert (D4 : V / 2 ^ 128 = V / 2 ^ 104 / 2 ^ 24) by (exact (D 104 24 ltac:(lia) ltac:(lia))). assert (D5 : V / 2 ^ 160 = V / 2 ^ 128 / 2 ^ 32) by (exact (D 128 32 ltac:(lia) ltac:(lia))). assert (D6 : V / 2 ^ 184 = V / 2 ^ 160 / 2 ^ 24) by (exact (D 160 24 ltac:(lia) ltac:(lia))). assert (D7 : V / 2 ^ 208 = V / 2 ^ 184 / 2 ^ 24) by (exact (D 184 24 ltac:(lia) ltac:(lia))). assert (D8 : V / 2 ^ 232 = V / 2 ^ 208 / 2 ^ 24) by (exact (D 208 24 ltac:(lia) ltac:(lia))).
  assert (D9 : V / 2 ^ 255 = V / 2 ^ 232 / 2 ^ 23) by (exact (D 232 23 ltac:(lia) ltac:(lia))). clear D.
  assert (M : ((V / 2 ^ 232) mod 2 ^ 24) mod 2 ^ 23 = (V / 2 ^ 232) mod 2 ^ 23). { change (2 ^ 24) with (2 ^ 23 * 2). apply mod_mul_mod; lia. }
  rewrite M. clear M.
  set (q0 := V) in *. set (q1 := q0 / 2 ^ 32) in *. set (q2 := q0 / 2 ^ 56) in *. set (q3 := q0 / 2 ^ 80) in *. set (q4 := q0 / 2 ^ 104) in *. set (q5 := q0 / 2 ^ 128) in *. set (q6 := q0 / 2 ^ 160) in *. set (q7 := q0 / 2 ^ 184) in *. set (q8 := q0 / 2 ^ 208) in *. set (q9 := q0 / 2 ^ 232) in *. set (q10 := q0 / 2 ^ 255) in *.
  pose proof (Z.mod_pos_bound q0 (2 ^ 32) ltac:(lia)). pose proof (Z.mod_pos_bound q1 (2 ^ 24) ltac:(lia)). pose proof (Z.mod_pos_bound q2 (2 ^ 24) ltac:(lia)). pose proof (Z.mod_pos_bound q3 (2 ^ 24) ltac:(lia)). pose proof (Z.mod_pos_bound q4 (2 ^ 24) ltac:(lia)). pose proof (Z.mod_pos_bound q5 (2 ^ 32) ltac:(lia)). pose proof (Z.mod_pos_bound q6 (2 ^ 24) ltac:(lia)). pose proof (Z.mod_pos_bound q7 (2 ^ 24) ltac:(lia)). pose proof (Z.mod_pos_bound q8 (2 ^ 24) ltac:(lia)). pose proof (Z.mod_pos_bound q9 (2 ^ 23) ltac:(lia)).
  pose proof (Z.div_mod q0 (2 ^ 32) ltac:(lia)) as E0. fold q1 in E0. pose proof (Z.div_mod q1 (2 ^ 24) ltac:(lia)) as E1. rewrite <- D1 in E1. pose proof (Z.div_mod q2 (2 ^ 24) ltac:(lia)) as E2. rewrite <- D2 in E2. pose proof (Z.div_mod q3 (2 ^ 24) ltac:(lia)) as E3. rewrite <- D3 in E3. pose proof (Z.div_mod q4 (2 ^ 24) ltac:(lia)) as E4. rewrite <- D4 in E4. pose proof (Z.div_mod q5 (2 ^ 32) ltac:(lia)) as E5. rewrite <- D5 in E5. pose proof (Z.div_mod q6 (2 ^ 24) ltac:(lia)) as E6. rewrite <- D6 in E6. pose proof (Z.div_mod q7 (2 ^ 24) ltac:(lia)) as E7. rewrite <- D7 in E7. pose proof (Z.div_mod q8 (2 ^ 24) ltac:(lia)) as E8. rewrite <- D8 in E8. pose proof (Z.div_mod q9 (2 ^ 23) ltac:(lia)) as E9. rewrite <- D9 in E9.
  pose proof (Z.div_mod q0 (2 ^ 255) ltac:(lia)) as E10. fold q10 in E10. clear D1 D2 D3 D4 D5 D6 D7 D8 D9.
  rewrite !i64_small by lia.
  match goal with |- fb 101 (FeCombine ?l) /\ _ => destruct (FeCombine_spec frombytes_Q (lim 101) l) as [C1 C2] end; [vm_compute; reflexivity | |].
  { unfold frombytes_Q. do 10 (constructor; [unfold inI; cbn [fst snd]; lia |]). constructor. }
  split; [exact C1 |]. rewrite C2. f_equal. unfold fe, fw. cbn [dot]. clear C1 C2. lia.
Qed.

(** ** FeToBytes *)
Definition fks : list Z := [26; 25; 26; 25; 26; 25; 26; 25; 26; 25].
Lemma fe_mval h : length h = 10%nat -> fe h = mval fks h.
Proof. intros L. destruct (list10 _ L) as (f0 & f1 & f2 & f3 & f4 & f5 & f6 & f7 & f8 & f9 & ->). unfold fe, fw, fks. cbn [dot mval]. lia. Qed.
(** The quotient chain without wrap-around *)
Fixpoint qi_steps (h : list itv) (k : Z) (q : itv) : option itv :=
  match h with [] => Some q | x :: r => match ck W32 (addI x q) with None => None | Some s => qi_steps r (51 - k) (shrI s k) end end.
Lemma q_steps_val Q h k q qi qo : 25 <= k <= 26 -> okI h Q -> inI q qi -> qi_steps Q k qi = Some qo ->
  q_steps h k q = fst (fold_left (fun '(q, k) x => (Z.shiftr (x + q) k, 51 - k)) h (q, k)) /\ inI (q_steps h k q) qo.
Proof.
  intros K O. revert k q qi K. induction O as [|v i h Q V O IH]; intros k q qi K I H; cbn [q_steps qi_steps fold_left] in *.
  - injection H as <-. split; [reflexivity | exact I].
  - destruct (ck W32 (addI i qi)) as [s|] eqn:C; [|discriminate]. apply ck_some in C. destruct C as [-> C]. pose proof (addI_ok _ _ _ _ V I) as A. pose proof (fits_wrap W32 _ _ C A) as W. cbn [go_wrap] in W. rewrite W.
    apply (IH (51 - k) _ (shrI (addI i qi) k)); [lia | apply shrI_ok; [lia | exact A] | exact H].
Qed.
Lemma div_step x q k m K : 0 <= k -> 0 <= K -> ((x + q) / 2 ^ k + m) / 2 ^ K = (x + q + 2 ^ k * m) / 2 ^ (k + K).
Proof.
  intros A B. rewrite Z.pow_add_r by lia. rewrite <- Z.div_div by (try apply Z.pow_nonzero; try apply Z.pow_pos_nonneg; lia). f_equal.
  rewrite (Z.mul_comm (2 ^ k) m), Z.div_add by (apply Z.pow_nonzero; lia). reflexivity.
Qed.
Lemma chain_val h : forall ks k q, ks = (fix go (n : nat) k := match n with O => [] | S n => k :: go n (51 - k) end) (length h) k -> 25 <= k <= 26 ->
  fst (fold_left (fun '(q, k) x => (Z.shiftr (x + q) k, 51 - k)) h (q, k)) = (q + mval ks h) / 2 ^ (fold_right Z.add 0 ks).
Proof.
  induction h as [|x h IH]; intros ks k q E K; subst ks; cbn [length fold_left mval fold_right fst].
  - rewrite Z.add_0_r, Z.div_1_r. reflexivity.
  - rewrite (IH _ (51 - k) _ eq_refl) by lia. set (ks := (fix go n k := match n with O => [] | S n => k :: go n (51 - k) end) (length h) (51 - k)).
    rewrite Z.shiftr_div_pow2 by lia. rewrite div_step; [f_equal; ring | lia |]. unfold ks. clear - K. assert (K2 : 25 <= 51 - k <= 26) by lia. revert K2. generalize (51 - k). induction (length h); intros z Z0; cbn [fold_right]; [lia |]. specialize (IHn (51 - z) ltac:(lia)). lia.
Qed.

Definition topI (Q : list itv) : itv := mulI (geti Q 9) (kI 19).
Definition tobytes_okb (Q : list itv) : bool :=
  (length Q =? 10)%nat && (- 2 ^ 31 <=? fst (geti Q 9)) && (snd (geti Q 9) <=? 2 ^ 31) && 
  (- 2 ^ 240 <=? fst (dotI (firstn 9 fw) (firstn 9 Q))) && (snd (dotI (firstn 9 fw) (firstn 9 Q)) <=? 2 ^ 240) &&
  fits W32 (topI Q) && fits W32 (addI (topI Q) (kI (2 ^ 24))) &&
  match qi_steps Q 26 (shrI (addI (topI Q) (kI (2 ^ 24))) 25) with
  | None => false
  | Some q => fits W32 (mulI (kI 19) q) && fits W32 (addI (geti Q 0) (mulI (kI 19) q)) &&
      match arun tobytes_code (puti Q 0 (addI (geti Q 0) (mulI (kI 19) q))) with None => false | Some R => within R (map (fun k => (0, 2 ^ k - 1)) fks) end
  end.
Definition canon : list itv := map (fun k => (0, 2 ^ k - 1)) fks.
Lemma okI_firstn st Q n : okI st Q -> okI (firstn n st) (firstn n Q).
Proof. intros O. revert n. induction O; intros [|n]; cbn [firstn]; try constructor; auto. apply IHO. Qed.
Lemma canon_range h : okI h canon -> 0 <= fe h < 2 ^ 255.
Proof.
  intros O. assert (W : forallb (Z.leb 0) fw = true) by reflexivity. pose proof (dot_ok fw h canon W O) as [A B]. assert (E : dotI fw canon = (0, 2 ^ 255 - 1)) by (vm_compute; reflexivity). rewrite E in A, B. cbn [fst snd] in *. unfold fe. lia.
Qed.
Lemma canon_mrange h : okI h canon -> mrange 25 fks h.
Proof.
  intros O. unfold canon, fks in O. cbn [map] in O. do 10 (let I := fresh in let O' := fresh in inversion_clear O as [|? ? ? ? I O']; rename O' into O). inversion O. unfold fks. cbn [mrange]. unfold inI in *; cbn [fst snd] in *. repeat split; lia.
Qed.
Theorem FeToBytes_gen Q h : tobytes_okb Q = true -> okI h Q ->
  fst (FeToBytes h) = le32 (fval (feF h)) /\ okI (snd (FeToBytes h)) canon /\ fe (snd (FeToBytes h)) = fval (feF h).
Proof.
  intros H O. unfold tobytes_okb in H.
  destruct (qi_steps Q 26 _) as [qq|] eqn:EQ in H; [|rewrite andb_false_r in H; discriminate].
  destruct (arun tobytes_code _) as [R|] eqn:ER in H; [|rewrite !andb_false_r in H; discriminate].
  apply andb_true_iff in H. destruct H as [H X5]. apply andb_true_iff in X5. destruct X5 as [X3 X5]. apply andb_true_iff in X3. destruct X3 as [X3 X4].
  apply andb_true_iff in H. destruct H as [H XA]. apply andb_true_iff in H. destruct H as [H XB]. apply andb_true_iff in H. destruct H as [H Dhi]. apply andb_true_iff in H. destruct H as [H Dlo].
  apply andb_true_iff in H. destruct H as [H Thi]. apply andb_true_iff in H. destruct H as [H Tlo]. apply Nat.eqb_eq in H. apply Z.leb_le in Dhi, Dlo, Thi, Tlo.
  pose proof (okI_length _ _ O) as LH. rewrite H in LH. pose proof (get_ok _ _ 9 O) as G9. pose proof (get_ok _ _ 0 O) as G0.
  assert (T19 : inI (19 * get h 9) (topI Q)) by (unfold topI; rewrite Z.mul_comm; apply mulI_ok; [exact G9 | apply kI_ok]).
  assert (T24 : inI (19 * get h 9 + 2 ^ 24) (addI (topI Q) (kI (2 ^ 24)))) by (apply addI_ok; [exact T19 | apply kI_ok]).
  unfold FeToBytes. set (q := tobytes_q h). assert (EQ0 : exists q0, q0 = (19 * get h 9 + 2 ^ 24) / 2 ^ 25 /\ q = (fe h + q0) / 2 ^ 255 /\ inI q qq).
  { exists ((19 * get h 9 + 2 ^ 24) / 2 ^ 25). split; [reflexivity |]. unfold q, tobytes_q.
    pose proof (fits_wrap W32 _ _ XB T19) as W1. cbn [go_wrap] in W1. rewrite W1. pose proof (fits_wrap W32 _ _ XA T24) as W2. cbn [go_wrap] in W2. rewrite W2.
    assert (I : inI (Z.shiftr (19 * get h 9 + 2 ^ 24) 25) (shrI (addI (topI Q) (kI (2 ^ 24))) 25)) by (apply shrI_ok; [lia | exact T24]).
    assert (K26 : 25 <= 26 <= 26) by lia. destruct (q_steps_val _ _ _ _ _ _ K26 O I EQ) as [E1 E2]. split; [|exact E2]. rewrite E1. rewrite (chain_val h fks); [|rewrite LH; reflexivity | lia]. rewrite fe_mval by exact LH. rewrite Z.shiftr_div_pow2 by lia. change (fold_right Z.add 0 fks) with 255. f_equal. ring. }
  destruct EQ0 as (q0 & E0 & Eq & Iq). clearbody q.
  assert (I19 : inI (19 * q) (mulI (kI 19) qq)) by (apply mulI_ok; [apply kI_ok | exact Iq]). pose proof (addI_ok _ _ _ _ G0 I19) as I0.
  pose proof (fits_wrap W32 _ _ X3 I19) as W1. cbn [go_wrap] in W1. rewrite W1. pose proof (fits_wrap W32 _ _ X4 I0) as W2. cbn [go_wrap] in W2. rewrite W2. clear W1 W2.
  pose proof (put_ok _ _ 0 _ _ O I0) as O1. destruct (arun_ok _ _ _ _ O1 ER) as [RE RO]. apply (within_ok _ _ _ X5) in RO. cbn [fst snd]. rewrite RE.
  set (h1 := put h 0 (get h 0 + 19 * q)) in *. set (h2 := run id_wrap tobytes_code h1) in *.
  assert (L1 : length h1 = 10%nat) by (unfold h1; rewrite put_length; exact LH). assert (L2 : length h2 = 10%nat) by (unfold h2; rewrite run_length; exact L1).
  assert (F1 : fe h1 = fe h + 19 * q). { unfold fe, h1. rewrite dot_put by lia. cbn [nth fw]. change (2 ^ 0) with 1. lia. }
  assert (F2 : (2 ^ 255 | fe h2 - fe h1)) by (apply run_pres; rewrite L1; vm_compute; reflexivity).
  fold canon in RO. pose proof (canon_range _ RO) as C2.
  assert (VAL : fe h2 = fe h - (2 ^ 255 - 19) * q /\ 0 <= fe h2 < 2 ^ 255 - 19).
  { assert (LOW : - 2 ^ 240 <= fe h - get h 9 * 2 ^ 230 <= 2 ^ 240).
    { assert (E : fe h - get h 9 * 2 ^ 230 = dot (firstn 9 fw) (firstn 9 h)).
      { destruct (list10 _ LH) as (f0 & f1 & f2 & f3 & f4 & f5 & f6 & f7 & f8 & f9 & ->). unfold fe, fw, get. cbn [dot nth firstn]. ring. }
      rewrite E. assert (W : forallb (Z.leb 0) (firstn 9 fw) = true) by reflexivity. pose proof (dot_ok _ _ _ W (okI_firstn _ _ 9 O)) as [A B]. lia. }
    set (V := fe h) in *. set (h9 := get h 9) in *. 
    assert (TOP : - 2 ^ 31 <= h9 <= 2 ^ 31). { unfold inI in G9. lia. }
    clearbody V h9. pose proof (Z.div_mod (V + q0) (2 ^ 255) ltac:(lia)) as DV. rewrite <- Eq in DV. pose proof (Z.mod_pos_bound (V + q0) (2 ^ 255) ltac:(lia)) as MV. set (s := (V + q0) mod 2 ^ 255) in *. clearbody s.
    pose proof (Z.div_mod (19 * h9 + 2 ^ 24) (2 ^ 25) ltac:(lia)) as DQ. rewrite <- E0 in DQ. pose proof (Z.mod_pos_bound (19 * h9 + 2 ^ 24) (2 ^ 25) ltac:(lia)) as MQ. set (t := (19 * h9 + 2 ^ 24) mod 2 ^ 25) in *. clearbody t. clear E0 Eq.
    destruct F2 as [c F2]. rewrite F1 in F2. assert (RNG : 0 <= V - (2 ^ 255 - 19) * q < 2 ^ 255 - 19) by lia.
    assert (c = - q) by lia. subst c. lia. }
  destruct VAL as [V1 V2]. assert (V3 : fe h2 = fval (feF h)). { unfold feF. rewrite fval_of_Z. apply (Z.mod_unique_pos _ _ q); rewrite p_val; lia. }
  split; [|split; [exact RO | exact V3]]. rewrite <- V3. rewrite fe_mval by exact L2. apply (stores_val 25); [repeat (constructor; [lia |]); constructor | apply canon_mrange; exact RO | reflexivity | vm_compute; reflexivity].
Qed.
Theorem FeToBytes_spec n h : n <= 600 -> fb n h -> fst (FeToBytes h) = le32 (fval (feF h)) /\ fb 200 (snd (FeToBytes h)) /\ feF (snd (FeToBytes h)) = feF h.
Proof.
  intros N H. apply (fb_weaken n 600 h N) in H. destruct (FeToBytes_gen (lim 600) h) as (A & B & C); [vm_compute; reflexivity | exact H |]. split; [exact A |]. split.
  - apply (within_ok _ canon); [vm_compute; reflexivity | exact B].
  - unfold feF at 1. rewrite C. apply of_Z_val.
Qed.
Theorem FeIsNegative_spec n h : n <= 600 -> fb n h -> FeIsNegative h = (fval (feF h) mod 2, snd (FeToBytes h)).
Proof.
  intros N H. destruct (FeToBytes_spec n h N H) as [A _]. unfold FeIsNegative. destruct (FeToBytes h) as [s f]. cbn [fst snd] in *. f_equal. rewrite A. unfold le32. cbn [seq map nth]. change (Z.of_nat 0) with 0. rewrite Z.div_1_r.
  change 1 with (Z.ones 1). rewrite Z.land_ones by lia. change (2 ^ 1) with 2. change 256 with (2 * 128). apply mod_mul_mod; lia.
Qed.
Lemma fold_lor_0 l : Forall (fun b => 0 <= b) l -> forall a, 0 <= a -> (fold_left Z.lor l a = 0 <-> a = 0 /\ Forall (fun b => b = 0) l).
Proof.
  intros H. induction H as [|b l B H IH]; intros a A; cbn [fold_left]; [split; [intros ->; auto | tauto] |]. rewrite IH by (apply Z.lor_nonneg; auto). rewrite Z.lor_eq_0_iff. split.
  - intros [[E1 E2] E3]. split; [exact E1 | constructor; assumption].
  - intros [E1 E2]. inversion_clear E2. auto.
Qed.
Lemma fold_lor_byte l : Forall (fun b => 0 <= b < 256) l -> forall a, 0 <= a < 256 -> 0 <= fold_left Z.lor l a < 256.
Proof.
  intros H. induction H as [|b l B H IH]; intros a A; cbn [fold_left]; [exact A |]. apply IH. split; [apply Z.lor_nonneg; lia |].
  destruct (Z.eq_dec (Z.lor a b) 0) as [-> | N]; [lia |]. assert (0 <= Z.lor a b) by (apply Z.lor_nonneg; lia). apply (Z.log2_lt_pow2 _ 8); [lia |]. rewrite Z.log2_lor by lia. apply Z.max_lub_lt.
  - destruct (Z.eq_dec a 0) as [-> | ]; [reflexivity |]. apply Z.log2_lt_pow2; lia.
  - destruct (Z.eq_dec b 0) as [-> | ]; [reflexivity |]. apply Z.log2_lt_pow2; lia.
Qed.
Lemma smear_spec x : 0 <= x < 256 ->
  (let a := Z.lor x (Z.shiftr x 4) in let b := Z.lor a (Z.shiftr a 2) in let c := Z.lor b (Z.shiftr b 1) in Z.land c 1) = if x =? 0 then 0 else 1.
Proof.
  intros H. assert (C : forallb (fun x => (let a := Z.lor x (Z.shiftr x 4) in let b := Z.lor a (Z.shiftr a 2) in let c := Z.lor b (Z.shiftr b 1) in Z.land c 1) =? (if x =? 0 then 0 else 1)) (map Z.of_nat (seq 0 256)) = true) by (vm_compute; reflexivity).
  rewrite forallb_forall in C. apply Z.eqb_eq. apply (C x). apply in_map_iff. exists (Z.to_nat x). split; [lia |]. apply in_seq. lia.
Qed.
Lemma le_value_0 l : Forall (fun b => b = 0) l -> le_value l = 0.
Proof. intros H. induction H as [|b l B H IH]; [reflexivity |]. cbn [le_value]. lia. Qed.
Theorem FeIsNonZero_spec n h : n <= 600 -> fb n h -> FeIsNonZero h = ((if F_dec (feF h) f0 then 0 else 1), snd (FeToBytes h)).
Proof.
  intros N H. destruct (FeToBytes_spec n h N H) as [A _]. unfold FeIsNonZero. destruct (FeToBytes h) as [s f]. cbn [fst snd] in *. f_equal. subst s.
  pose proof (le32_bytes (fval (feF h))) as B. rewrite smear_spec by (apply fold_lor_byte; [exact B | lia]).
  assert (NN : Forall (fun b => 0 <= b) (le32 (fval (feF h)))) by (eapply Forall_impl; [|exact B]; cbv beta; unfold is_byte; intros; lia).
  pose proof (fval_range (feF h)) as R. rewrite p_val in R.
  destruct (F_dec (feF h) f0) as [E | E]; destruct (Z.eqb_spec (fold_left Z.lor (le32 (fval (feF h))) 0) 0) as [Q | Q]; try reflexivity; exfalso.
  - apply Q. rewrite E. vm_compute. reflexivity.
  - apply E. apply fold_lor_0 in Q; [|exact NN | lia]. destruct Q as [_ Q]. apply le_value_0 in Q. rewrite le_value_le32 in Q by lia. apply F_eq. rewrite Q. reflexivity.
Qed.

(** ** Powers *)
Definition frep (z : F) (e : positive) (t : FieldElement) : Prop := fb 101 t /\ feF t = fpow_pos z e.
Lemma fpow_pos_add z a b : fpow_pos z (a + b) = (fpow_pos z a * fpow_pos z b)%F.
Proof. rewrite !fpow_pos_eq, <- of_Z_mul. f_equal. rewrite Pos2Z.inj_add, Z.pow_add_r by lia. reflexivity. Qed.
Lemma frep_mul z a b s t : frep z a s -> frep z b t -> frep z (a + b) (FeMul s t).
Proof. intros [A1 A2] [B1 B2]. destruct (FeMul_spec 101 101 s t ltac:(lia) ltac:(lia) A1 B1) as [C1 C2]. split; [exact C1 |]. rewrite C2, A2, B2. symmetry. apply fpow_pos_add. Qed.
Lemma frep_square z a s : frep z a s -> frep z (xO a) (FeSquare s).
Proof. intros [A1 A2]. destruct (FeSquare_spec 101 s ltac:(lia) A1) as [C1 C2]. split; [exact C1 |]. rewrite C2, A2. reflexivity. Qed.
Lemma frep_loop z n a s : frep z a s -> frep z (Nat.iter (n - 1) xO a) (square_loop n s).
Proof. intros H. unfold square_loop. induction (n - 1)%nat as [|k IH]; cbn [Nat.iter nat_rect]; [exact H |]. apply frep_square. exact IH. Qed.
Lemma frep_start n z : n <= 330 -> fb n z -> frep (feF z) 2 (FeSquare z).
Proof. intros N H. destruct (FeSquare_spec n z N H) as [C1 C2]. split; [exact C1 |]. rewrite C2. reflexivity. Qed.
Lemma frep_mul_l n z b t : n <= 330 -> fb n z -> frep (feF z) b t -> frep (feF z) (1 + b) (FeMul z t).
Proof. intros N H [B1 B2]. destruct (FeMul_spec n 101 z t N ltac:(lia) H B1) as [C1 C2]. split; [exact C1 |]. rewrite C2, B2. symmetry. apply (fpow_pos_add _ 1). Qed.
Lemma frep_mul_r n z b t : n <= 330 -> fb n z -> frep (feF z) b t -> frep (feF z) (b + 1) (FeMul t z).
Proof. intros N H [B1 B2]. destruct (FeMul_spec 101 n t z ltac:(lia) N B1 H) as [C1 C2]. split; [exact C1 |]. rewrite C2, B2. symmetry. apply (fpow_pos_add _ _ 1). Qed.
#[local] Opaque FeMul FeSquare square_loop.
Lemma frep_let z e t (K : FieldElement -> FieldElement) r : frep z e t -> (forall t, frep z e t -> frep z r (K t)) -> frep z r (let x := t in K x).
Proof. intros A B. apply B. exact A. Qed.
Ltac pow_one z N H := match goal with
  | |- frep _ _ (FeSquare z) => exact (frep_start _ _ N H)
  | R : frep _ _ ?t |- frep _ _ (FeMul z ?t) => exact (frep_mul_l _ _ _ _ N H R)
  | R : frep _ _ ?t |- frep _ _ (FeMul ?t z) => exact (frep_mul_r _ _ _ _ N H R)
  | R1 : frep _ _ ?s, R2 : frep _ _ ?t |- frep _ _ (FeMul ?s ?t) => exact (frep_mul _ _ _ _ _ R1 R2)
  | R : frep _ _ ?t |- frep _ _ (square_loop ?n ?t) => exact (frep_loop _ n _ _ R)
  | R : frep _ _ ?t |- frep _ _ (FeSquare ?t) => exact (frep_square _ _ _ R) end.
Ltac pow_chain z N H :=
  repeat match goal with |- frep _ _ (let x := ?t in @?K x) => eapply (frep_let _ _ t K); [pow_one z N H | cbv beta; let t := fresh "t" in let R := fresh "R" in intros t R] end;
  pow_one z N H.
#[local] Transparent finv.
Lemma finv_pow a : finv a = fpow_pos a (Z.to_pos (p25519 - 2)). Proof. reflexivity. Qed.
#[local] Opaque finv.
Theorem FeInvert_spec n z : n <= 330 -> fb n z -> fb 101 (FeInvert z) /\ feF (FeInvert z) = finv (feF z).
Proof.
  intros N H. rewrite finv_pow.
  assert (E : exists e, frep (feF z) e (FeInvert z) /\ e = Z.to_pos (p25519 - 2)).
  { eexists. split; [cbv beta delta [FeInvert]; pow_chain z N H |]. vm_compute. reflexivity. }
  destruct E as (e & [E1 E2] & ->). split; assumption.
Qed.
Theorem fePow22523_spec n z : n <= 330 -> fb n z -> fb 101 (fePow22523 z) /\ feF (fePow22523 z) = fpow_pos (feF z) (Z.to_pos ((p25519 - 5) / 8)).
Proof.
  intros N H.
  assert (E : exists e, frep (feF z) e (fePow22523 z) /\ e = Z.to_pos ((p25519 - 5) / 8)).
  { eexists. split; [cbv beta delta [fePow22523]; pow_chain z N H |]. vm_compute. reflexivity. }
  destruct E as (e & [E1 E2] & ->). split; assumption.
Qed.
