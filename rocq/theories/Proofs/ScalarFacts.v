(** ScReduce, ScMulAdd and ScMinimal are exact. *)
From Verif.Model Require Import Base Limb EdwardsTable EdwardsCode Edwards.
From Verif.Spec Require Import EdSpec.
From Verif.Proofs Require Import Util LimbFacts RadixFacts.

(** ** Loads *)
Definition sw (n : nat) : list Z := map (fun i => 2 ^ (21 * Z.of_nat i)) (seq 0 n).
Definition load_okb (len i : nat) (l : bool * nat * nat * Z) : bool :=
  let '(masked, n, o, k) := l in
  ((n =? 3)%nat || (n =? 4)%nat) && (0 <=? k) && (8 * Z.of_nat o + k =? 21 * Z.of_nat i) &&
  (if masked then k + 21 <=? 8 * Z.of_nat n else (o + n =? len)%nat).
Definition limb_val (V : Z) (masked : bool) (i : nat) : Z := if masked then (V / 2 ^ (21 * Z.of_nat i)) mod 2 ^ 21 else V / 2 ^ (21 * Z.of_nat i).
Lemma load_limb_val len s i l : bytes_ok s -> length s = len -> load_okb len i l = true -> load_limb s l = limb_val (le_value s) (fst (fst (fst l))) i.
Proof.
  intros B L H. destruct l as [[[masked n] o] k]. cbn [fst]. unfold load_okb in H. repeat (apply andb_true_iff in H; destruct H as [H ?]).
  assert (N : (n = 3 \/ n = 4)%nat) by (apply orb_true_iff in H; destruct H as [H | H]; apply Nat.eqb_eq in H; auto). apply Z.leb_le in H2. apply Z.eqb_eq in H1.
  unfold load_limb, limb_val. rewrite load_val by auto. rewrite Z.shiftr_div_pow2 by lia. rewrite <- H1. rewrite Z.pow_add_r by lia. rewrite <- (Z.div_div (le_value s)) by (try apply Z.pow_nonzero; try apply Z.pow_pos_nonneg; lia).
  set (W := le_value s / 2 ^ (8 * Z.of_nat o)). destruct masked.
  - apply Z.leb_le in H0. rewrite Z.land_comm. change 2097151 with (2 ^ 21 - 1). rewrite land_ones_mod by lia. apply mod_div_mod; lia.
  - apply Nat.eqb_eq in H0. f_equal. apply Z.mod_small. pose proof (le_value_range _ B) as R. rewrite L in R. assert (0 < 2 ^ (8 * Z.of_nat o)) by (apply Z.pow_pos_nonneg; lia). unfold W. split; [apply Z.div_pos; lia |].
    apply Z.div_lt_upper_bound; [lia |]. rewrite <- Z.pow_add_r by lia. replace (8 * Z.of_nat o + 8 * Z.of_nat n) with (8 * Z.of_nat len) by lia. rewrite Z.pow_mul_r by lia. apply R.
Qed.
Lemma loads_val len s ls : bytes_ok s -> length s = len -> forallb (fun '(i, l) => load_okb len i l) (combine (seq 0 (length ls)) ls) = true ->
  map (load_limb s) ls = map (fun '(i, l) => limb_val (le_value s) (fst (fst (fst l))) i) (combine (seq 0 (length ls)) ls).
Proof.
  intros B L. generalize 0%nat as a. induction ls as [|l ls IH]; intros a H; [reflexivity |]. cbn [length seq combine map forallb] in *. apply andb_true_iff in H. destruct H as [H1 H2].
  rewrite (load_limb_val len s a l B L H1). f_equal. apply IH. exact H2.
Qed.
Lemma limbs_sum V n : dot (sw (S n)) (map (limb_val V true) (seq 0 n) ++ [limb_val V false n]) = V.
Proof.
  unfold sw. enough (G : forall n a, dot (map (fun i => 2 ^ (21 * Z.of_nat i)) (seq a (S n))) (map (limb_val V true) (seq a n) ++ [limb_val V false (a + n)]) = 2 ^ (21 * Z.of_nat a) * (V / 2 ^ (21 * Z.of_nat a))).
  { etransitivity; [apply (G n 0%nat) |]. change (2 ^ (21 * Z.of_nat 0)) with 1. rewrite Z.div_1_r. lia. }
  clear n. induction n as [|n IH]; intros a.
  - cbn [seq map app dot]. unfold limb_val. rewrite Nat.add_0_r. lia.
  - cbn [seq map app dot] in *. rewrite <- Nat.add_succ_comm. rewrite IH. unfold limb_val.
    replace (21 * Z.of_nat (S a)) with (21 * Z.of_nat a + 21) by lia. rewrite Z.pow_add_r by lia. rewrite <- Z.div_div by (try apply Z.pow_nonzero; lia). set (q := V / 2 ^ (21 * Z.of_nat a)).
    pose proof (Z.div_mod q (2 ^ 21) ltac:(lia)). nia.
Qed.
Definition limb_itv : itv := (0, 2097151).
Lemma limb_in V i : inI (limb_val V true i) limb_itv.
Proof. unfold inI, limb_val, limb_itv; cbn [fst snd]. pose proof (Z.mod_pos_bound (V / 2 ^ (21 * Z.of_nat i)) (2 ^ 21) ltac:(lia)). lia. Qed.
Lemma limbs_in V a n : okI (map (limb_val V true) (seq a n)) (repeat limb_itv n).
Proof. revert a. induction n; intros a; cbn [seq map repeat]; constructor; [apply limb_in | apply IHn]. Qed.
Lemma reduce_limbs s : bytes_ok s -> length s = 64%nat ->
  map (load_limb s) reduce_loads = map (limb_val (le_value s) true) (seq 0 23) ++ [limb_val (le_value s) false 23].
Proof. intros B L. rewrite (loads_val 64 s reduce_loads B L) by reflexivity. reflexivity. Qed.
Lemma muladd_limbs s : bytes_ok s -> length s = 32%nat ->
  map (load_limb s) muladd_loads = map (limb_val (le_value s) true) (seq 0 11) ++ [limb_val (le_value s) false 11].
Proof. intros B L. rewrite (loads_val 32 s muladd_loads B L) by reflexivity. reflexivity. Qed.

(** ** The reduction *)
Definition codeA := firstn 36 reduce_code.
Definition codeB := firstn 12 (skipn 36 reduce_code).
Definition codeF := firstn 1 (skipn 48 reduce_code).
Definition codeC := skipn 49 reduce_code.
Lemma reduce_split : reduce_code = codeA ++ codeB ++ codeF ++ codeC. Proof. reflexivity. Qed.
Lemma run_app w p q st : run w (p ++ q) st = run w q (run w p st). Proof. apply fold_left_app. Qed.
Definition SB : list itv := repeat limb_itv 12 ++ [(-1, 0)] ++ repeat (0, 0) 11.
Definition within (S T : list itv) : bool := (length S =? length T)%nat && forallb (fun '(a, b) => (fst b <=? fst a) && (snd a <=? snd b)) (combine S T).
Lemma within_ok st Q T : within Q T = true -> okI st Q -> okI st T.
Proof. intros H O. apply andb_true_iff in H. destruct H as [L H]. apply Nat.eqb_eq in L. apply (okI_weaken st Q); assumption. Qed.
Definition big : Z := 2 ^ 252.
Definition wide : itv := (- 2 ^ 63, 2 ^ 63).
Definition reduce_okb (S0 : list itv) : bool :=
  (length S0 =? 24)%nat &&
  match arun codeA S0 with
  | None => false
  | Some SA =>
      (- big <=? fst (dotI (sw 24) SA)) && (snd (dotI (sw 24) SA) <? big) && 
      match arun codeB SA with
      | None => false
      | Some S1 => within S1 (repeat limb_itv 12 ++ [wide] ++ repeat (0, 0) 11)
      end
  end.
Definition ks12 : list Z := repeat 21 11 ++ [25] ++ repeat 21 12.

Lemma okI_split st m w : okI st (repeat limb_itv 12 ++ [w] ++ repeat (0, 0) m) -> length st = (13 + m)%nat ->
  exists s0 s1 s2 s3 s4 s5 s6 s7 s8 s9 s10 s11 s12, st = [s0; s1; s2; s3; s4; s5; s6; s7; s8; s9; s10; s11; s12] ++ repeat 0 m /\ Forall (fun v => inI v limb_itv) [s0; s1; s2; s3; s4; s5; s6; s7; s8; s9; s10; s11] /\ inI s12 w.
Proof.
  intros O L. cbn [repeat app] in O. do 13 (destruct st as [|? st]; [discriminate |]; inversion_clear O as [|? ? ? ? ?I O0]; rename O0 into O).
  exists z, z0, z1, z2, z3, z4, z5, z6, z7, z8, z9, z10, z11. split; [|split; [repeat (constructor; [assumption |]); constructor | assumption]].
  cbn [app]. repeat f_equal. clear - O. remember (repeat (0, 0) m) as r eqn:E. revert m E. induction O as [|v i st r V O IH]; intros [|m] E; try discriminate; [reflexivity |].
  cbn [repeat] in *. injection E as -> ->. f_equal; [unfold inI in V; cbn in V; lia | apply IH; reflexivity].
Qed.
Theorem reduce_exact st S0 : reduce_okb S0 = true -> okI st S0 ->
  map (store W64 (run go_wrap reduce_code st)) scalar_stores = le32 (dot (sw 24) st mod ell).
Proof.
  intros H O. unfold reduce_okb in H. apply andb_true_iff in H. destruct H as [HL H]. apply Nat.eqb_eq in HL. pose proof (okI_length _ _ O) as LEN. rewrite HL in LEN.
  destruct (arun codeA S0) as [SA|] eqn:EA; [|discriminate]. apply andb_true_iff in H. destruct H as [H HB]. apply andb_true_iff in H. destruct H as [H1 H2]. apply Z.leb_le in H1. apply Z.ltb_lt in H2.
  destruct (arun codeB SA) as [S1|] eqn:EB; [|discriminate].
  destruct (arun_ok _ _ _ _ O EA) as [RA OA]. destruct (arun_ok _ _ _ _ OA EB) as [RB OB]. apply (within_ok _ _ _ HB) in OB.
  rewrite reduce_split, !run_app, RA, RB.
  set (stA := run id_wrap codeA st) in *. set (stB := run id_wrap codeB stA) in *.
  assert (LA : length stA = 24%nat) by (unfold stA; rewrite run_length; exact LEN). assert (LB : length stB = 24%nat) by (unfold stB; rewrite run_length; exact LA).
  assert (DA : (ell | dot (sw 24) stA - dot (sw 24) st)) by (apply run_pres; rewrite LEN; vm_compute; reflexivity).
  assert (DB : dot (sw 24) stB = dot (sw 24) stA) by (apply run_exact; rewrite LA; vm_compute; reflexivity).
  assert (WA : - big <= dot (sw 24) stA < big). { pose proof (dot_ok (sw 24) stA SA eq_refl OA) as [W1 W2]. lia. }
  clearbody stA. clear RA RB EA EB.
  destruct (okI_split stB 11 wide OB LB) as (s0 & s1 & s2 & s3 & s4 & s5 & s6 & s7 & s8 & s9 & s10 & s11 & s12 & ES & FS & _).
  assert (DS : dot (sw 24) stB = dot (sw 12) [s0; s1; s2; s3; s4; s5; s6; s7; s8; s9; s10; s11] + big * s12). { rewrite ES. unfold sw, big. cbn [seq map dot app repeat]. change (2 ^ (21 * Z.of_nat 12)) with (2 ^ 252). rewrite !Z.mul_0_r, !Z.add_0_r. lia. }
  assert (LOW : 0 <= dot (sw 12) [s0; s1; s2; s3; s4; s5; s6; s7; s8; s9; s10; s11] < big).
  { assert (I : inI (dot (sw 12) [s0; s1; s2; s3; s4; s5; s6; s7; s8; s9; s10; s11]) (dotI (sw 12) (repeat limb_itv 12))).
    { apply dot_ok; [reflexivity |]. cbn [repeat]. do 12 (inversion_clear FS as [|? ? ?I FS0]; rename FS0 into FS; constructor; [assumption |]). constructor. }
    destruct I as [I1 I2]. unfold big. change (fst (dotI (sw 12) (repeat limb_itv 12))) with 0 in I1. assert (snd (dotI (sw 12) (repeat limb_itv 12)) = 2 ^ 252 - 1) as E by (vm_compute; reflexivity). lia. }
  assert (S12 : s12 = -1 \/ s12 = 0) by (unfold big in *; nia).
  assert (OB' : okI stB SB).
  { rewrite ES. unfold SB. cbn [repeat app]. do 12 (inversion_clear FS as [|? ? ?I FS0]; rename FS0 into FS; constructor; [assumption |]). constructor; [unfold inI; cbn [fst snd]; lia |]. repeat constructor; cbn; lia. }
  assert (EF : exists SF, arun codeF SB = Some SF /\ exists SC, arun codeC SF = Some SC /\ within SC (repeat limb_itv 11 ++ [wide] ++ repeat (0, 0) 12) = true).
  { assert (T : match arun codeF SB with None => false | Some SF => match arun codeC SF with None => false | Some SC => within SC (repeat limb_itv 11 ++ [wide] ++ repeat (0, 0) 12) end end = true) by (vm_compute; reflexivity).
    destruct (arun codeF SB) as [SF|]; [|discriminate]. exists SF. split; [reflexivity |]. destruct (arun codeC SF) as [SC|]; [|discriminate]. exists SC. split; [reflexivity | exact T]. }
  destruct EF as (SF & EF & SC & EC & HC). destruct (arun_ok _ _ _ _ OB' EF) as [RF OF]. destruct (arun_ok _ _ _ _ OF EC) as [RC OC]. rewrite RF, RC. apply (within_ok _ _ _ HC) in OC.
  set (stF := run id_wrap codeF stB) in *. set (stC := run id_wrap codeC stF) in *.
  assert (LF : length stF = 24%nat) by (unfold stF; rewrite run_length; exact LB). assert (LC : length stC = 24%nat) by (unfold stC; rewrite run_length; exact LF).
  assert (DF : dot (sw 24) stF = dot (sw 24) stB - ell * s12).
  { unfold stF. rewrite ES. unfold codeF, run, id_wrap. unfold sw, ell. cbn [seq map dot app repeat firstn skipn reduce_code fold_left step get nth acc put]. rewrite !Z.mul_0_r, !Z.add_0_r. change (21 * Z.of_nat 12) with 252. change (21 * Z.of_nat 1) with 21. change (21 * Z.of_nat 2) with 42. change (21 * Z.of_nat 3) with 63. change (21 * Z.of_nat 4) with 84. change (21 * Z.of_nat 5) with 105. change (21 * Z.of_nat 6) with 126. change (21 * Z.of_nat 7) with 147. change (21 * Z.of_nat 8) with 168. change (21 * Z.of_nat 9) with 189. change (21 * Z.of_nat 10) with 210. change (21 * Z.of_nat 11) with 231. lia. }
  assert (DC : dot (sw 24) stC = dot (sw 24) stF) by (apply run_exact; rewrite LF; vm_compute; reflexivity).
  assert (V : 0 <= dot (sw 24) stC < ell). { rewrite DC, DF. unfold big, ell in *. destruct S12; subst s12; lia. }
  assert (M : dot (sw 24) stC = dot (sw 24) st mod ell).
  { destruct DA as [q DA]. apply (Z.mod_unique_pos _ _ (- q + s12)); [exact V |]. rewrite DC, DF, DB. lia. }
  rewrite <- M. clear M DC DF DA. clearbody stC. clear - OC LC V.
  cbn [repeat app] in OC. do 24 (destruct stC as [|? stC]; [discriminate |]; inversion_clear OC as [|? ? ? ? ?I O0]; rename O0 into OC). destruct stC; [|discriminate].
  unfold inI, limb_itv in *. cbn [fst snd] in *.
  assert (E : forall a, 0 <= a <= 0 -> a = 0) by (intros; lia).
  repeat match goal with H : 0 <= ?x <= 0 |- _ => apply E in H; subst x end. clear E.
  assert (EV : mval ks12 [z; z0; z1; z2; z3; z4; z5; z6; z7; z8; z9; z10; 0; 0; 0; 0; 0; 0; 0; 0; 0; 0; 0; 0] = dot (sw 24) [z; z0; z1; z2; z3; z4; z5; z6; z7; z8; z9; z10; 0; 0; 0; 0; 0; 0; 0; 0; 0; 0; 0; 0]).
  { unfold sw, ks12. cbn [mval repeat app seq map dot]. rewrite !Z.mul_0_r, !Z.add_0_r. change (21 * Z.of_nat 0) with 0. change (21 * Z.of_nat 1) with 21. change (21 * Z.of_nat 2) with 42. change (21 * Z.of_nat 3) with 63. change (21 * Z.of_nat 4) with 84. change (21 * Z.of_nat 5) with 105. change (21 * Z.of_nat 6) with 126. change (21 * Z.of_nat 7) with 147. change (21 * Z.of_nat 8) with 168. change (21 * Z.of_nat 9) with 189. change (21 * Z.of_nat 10) with 210. change (21 * Z.of_nat 11) with 231. lia. }
  rewrite <- EV. apply (stores_val 21); [repeat constructor; lia | | reflexivity | vm_compute; reflexivity].
  assert (R : 0 <= z10 < 2 ^ 25).
  { clear EV. unfold sw, ell in V. cbn [seq map dot] in V. rewrite !Z.mul_0_r, !Z.add_0_r in V.
    change (21 * Z.of_nat 0) with 0 in V. change (21 * Z.of_nat 1) with 21 in V. change (21 * Z.of_nat 2) with 42 in V. change (21 * Z.of_nat 3) with 63 in V. change (21 * Z.of_nat 4) with 84 in V. change (21 * Z.of_nat 5) with 105 in V.
    change (21 * Z.of_nat 6) with 126 in V. change (21 * Z.of_nat 7) with 147 in V. change (21 * Z.of_nat 8) with 168 in V. change (21 * Z.of_nat 9) with 189 in V. change (21 * Z.of_nat 10) with 210 in V. change (21 * Z.of_nat 11) with 231 in V. lia. }
  cbn [mrange ks12 repeat app]. repeat split; lia.
Qed.

Definition reduce_S0 : list itv := repeat limb_itv 23 ++ [(0, 536870911)].
Theorem ScReduce_spec s : bytes_ok s -> length s = 64%nat -> ScReduce s = le32 (le_value s mod ell).
Proof.
  intros B L. unfold ScReduce. rewrite (reduce_exact _ reduce_S0).
  - rewrite reduce_limbs by assumption. rewrite limbs_sum. reflexivity.
  - vm_compute. reflexivity.
  - rewrite reduce_limbs by assumption. unfold reduce_S0. apply Forall2_app; [apply limbs_in |]. constructor; [|constructor].
    unfold inI, limb_val; cbn [fst snd]. pose proof (le_value_range _ B) as R. rewrite L in R. change (256 ^ Z.of_nat 64) with (2 ^ 483 * 2 ^ 29) in R. change (21 * Z.of_nat 23) with 483.
    split; [apply Z.div_pos; lia |]. enough (le_value s / 2 ^ 483 < 2 ^ 29) by lia. apply Z.div_lt_upper_bound; lia.
Qed.

(** ** ScMulAdd *)
Definition muladd_S : list itv := repeat limb_itv 11 ++ [(0, 33554431)].
Definition muladd_S0 : list itv := muladd_S ++ muladd_S ++ muladd_S ++ repeat (0, 0) 24.
Lemma arun_skipn st Q n : okI st Q -> okI (skipn n st) (skipn n Q).
Proof. intros O. revert n. induction O; intros [|n]; cbn [skipn]; try constructor; auto. Qed.
Lemma muladd_limbs_in s : bytes_ok s -> length s = 32%nat -> okI (map (limb_val (le_value s) true) (seq 0 11) ++ [limb_val (le_value s) false 11]) muladd_S.
Proof.
  intros B L. apply Forall2_app; [apply limbs_in |]. constructor; [|constructor].
  unfold inI, limb_val; cbn [fst snd]. pose proof (le_value_range _ B) as R. rewrite L in R. change (256 ^ Z.of_nat 32) with (2 ^ 231 * 2 ^ 25) in R. change (21 * Z.of_nat 11) with 231.
  split; [apply Z.div_pos; lia |]. enough (le_value s / 2 ^ 231 < 2 ^ 25) by lia. apply Z.div_lt_upper_bound; lia.
Qed.
Lemma list12 (l : list Z) : length l = 12%nat -> exists a0 a1 a2 a3 a4 a5 a6 a7 a8 a9 a10 a11, l = [a0; a1; a2; a3; a4; a5; a6; a7; a8; a9; a10; a11].
Proof. intros L. do 12 (destruct l as [|? l]; [discriminate |]). destruct l; [|discriminate]. do 12 eexists. reflexivity. Qed.
Definition xw (x : Z) (n : nat) : list Z := map (fun i => x ^ Z.of_nat i) (seq 0 n).
Lemma sw_xw n : sw n = xw (2 ^ 21) n.
Proof. unfold sw, xw. apply map_ext. intros i. apply Z.pow_mul_r; lia. Qed.
Lemma products_dot a b c : length a = 12%nat -> length b = 12%nat -> length c = 12%nat ->
  dot (sw 24) (skipn 36 (run id_wrap muladd_products (a ++ b ++ c ++ repeat 0 24))) = dot (sw 12) a * dot (sw 12) b + dot (sw 12) c.
Proof.
  intros A B C. apply list12 in A, B, C. destruct A as (a0 & a1 & a2 & a3 & a4 & a5 & a6 & a7 & a8 & a9 & a10 & a11 & ->), B as (b0 & b1 & b2 & b3 & b4 & b5 & b6 & b7 & b8 & b9 & b10 & b11 & ->), C as (c0 & c1 & c2 & c3 & c4 & c5 & c6 & c7 & c8 & c9 & c10 & c11 & ->).
  rewrite !sw_xw. generalize (2 ^ 21). intros x.
  cbv beta iota zeta delta [run id_wrap app repeat muladd_products fold_left step put ev get nth skipn].
  cbv beta iota zeta delta [xw seq map dot Z.of_nat Pos.of_succ_nat Pos.succ]. ring.
Qed.
Theorem ScMulAdd_spec a b c : bytes_ok a -> bytes_ok b -> bytes_ok c -> length a = 32%nat -> length b = 32%nat -> length c = 32%nat ->
  ScMulAdd a b c = le32 ((le_value a * le_value b + le_value c) mod ell).
Proof.
  intros A B C LA LB LC. unfold ScMulAdd. rewrite !muladd_limbs by assumption.
  set (la := map (limb_val (le_value a) true) (seq 0 11) ++ [limb_val (le_value a) false 11]). set (lb := map (limb_val (le_value b) true) (seq 0 11) ++ [limb_val (le_value b) false 11]). set (lc := map (limb_val (le_value c) true) (seq 0 11) ++ [limb_val (le_value c) false 11]).
  assert (O : okI (la ++ lb ++ lc ++ repeat 0 24) muladd_S0).
  { unfold muladd_S0. do 3 (apply Forall2_app; [apply muladd_limbs_in; assumption |]). cbn [repeat]. do 24 (constructor; [unfold inI; cbn; lia |]). constructor. }
  assert (E : exists SP, arun muladd_products muladd_S0 = Some SP /\ exists SC, arun muladd_carries (skipn 36 SP) = Some SC /\ reduce_okb SC = true).
  { assert (T : match arun muladd_products muladd_S0 with None => false | Some SP => match arun muladd_carries (skipn 36 SP) with None => false | Some SC => reduce_okb SC end end = true) by (vm_compute; reflexivity).
    destruct (arun muladd_products muladd_S0) as [SP|]; [|discriminate]. exists SP. split; [reflexivity |]. destruct (arun muladd_carries (skipn 36 SP)) as [SC|]; [|discriminate]. exists SC. split; [reflexivity | exact T]. }
  destruct E as (SP & EP & SC & EC & RC). destruct (arun_ok _ _ _ _ O EP) as [RP OP]. apply (arun_skipn _ _ 36) in OP. destruct (arun_ok _ _ _ _ OP EC) as [RK OK].
  rewrite RP, RK. rewrite (reduce_exact _ SC) by assumption. f_equal. f_equal. rewrite run_exact.
  - rewrite products_dot by (unfold la, lb, lc; rewrite app_length, map_length, seq_length; reflexivity). unfold la, lb, lc. rewrite !limbs_sum. reflexivity.
  - rewrite skipn_length, run_length, !app_length. unfold la, lb, lc. rewrite !app_length, !map_length, seq_length, repeat_length. vm_compute. reflexivity.
Qed.

(** ** ScMinimal *)
Lemma firstn_S_nth {A} (l : list A) n d : (n < length l)%nat -> firstn (S n) l = firstn n l ++ [nth n l d].
Proof. revert n. induction l as [|a l IH]; intros [|n] L; cbn [length] in L; try lia; [reflexivity |]. cbn [firstn app nth]. rewrite <- IH by lia. reflexivity. Qed.
Lemma skipn_add {A} n m (l : list A) : skipn n (skipn m l) = skipn (n + m) l.
Proof. revert l. induction m as [|m IH]; intros l; [rewrite Nat.add_0_r; reflexivity |]. rewrite Nat.add_succ_r. destruct l; [rewrite !skipn_nil; reflexivity | apply IH]. Qed.
Lemma le_uint64_steps s n : bytes_ok s -> fold_right (fun i v => Z.lor v (Z.shiftl (nth i s 0) (8 * Z.of_nat i))) 0 (rev (seq 0 n)) = le_value (firstn n s).
Proof.
  intros B. induction n as [|n IH]; [reflexivity |]. rewrite seq_S, rev_app_distr. cbn [rev app fold_right]. rewrite IH. cbn [Nat.add].
  assert (R : 0 <= le_value (firstn n s) < 2 ^ (8 * Z.of_nat n)).
  { pose proof (le_value_range _ (Forall_firstn' _ n _ B)) as R. rewrite Z.pow_mul_r by lia. change (2 ^ 8) with 256. split; [lia |]. eapply Z.lt_le_trans; [apply R |]. apply Z.pow_le_mono_r; [lia |]. rewrite firstn_length. lia. }
  rewrite lor_shift by (try lia; apply R).
  destruct (Nat.lt_ge_cases n (length s)) as [L | L].
  - rewrite (firstn_S_nth s n 0) by assumption. rewrite le_value_app. rewrite firstn_length, Nat.min_l by lia. cbn [le_value]. rewrite Z.pow_mul_r by lia. change (2 ^ 8) with 256. lia.
  - rewrite nth_overflow by assumption. rewrite !firstn_all2 by lia. lia.
Qed.
Lemma le_uint64_val s : bytes_ok s -> le_uint64 s = le_value (firstn 8 s).
Proof. apply le_uint64_steps. Qed.
Theorem ScMinimal_spec s : bytes_ok s -> length s = 32%nat -> ScMinimal s = (le_value s <? ell).
Proof.
  intros B L. unfold ScMinimal.
  set (v0 := le_uint64 (skipn 0 s)). set (v1 := le_uint64 (skipn 8 s)). set (v2 := le_uint64 (skipn 16 s)). set (v3 := le_uint64 (skipn 24 s)).
  assert (E : le_value s = v0 + 2 ^ 64 * v1 + 2 ^ 128 * v2 + 2 ^ 192 * v3 /\ 0 <= v0 < 2 ^ 64 /\ 0 <= v1 < 2 ^ 64 /\ 0 <= v2 < 2 ^ 64 /\ 0 <= v3 < 2 ^ 64).
  { assert (R : forall o, (o + 8 <= 32)%nat -> 0 <= le_uint64 (skipn o s) < 2 ^ 64).
    { intros o H. assert (B' : bytes_ok (skipn o s)) by (apply Forall_skipn'; exact B). rewrite le_uint64_val by exact B'. pose proof (le_value_range _ (Forall_firstn' _ 8 _ B')) as R. rewrite firstn_length, skipn_length, L in R. rewrite Nat.min_l in R by lia. exact R. }
    split; [|repeat split; apply R; lia]. unfold v0, v1, v2, v3. rewrite !le_uint64_val by (apply Forall_skipn'; exact B).
    assert (C : forall t, le_value t = le_value (firstn 8 t) + 256 ^ Z.of_nat (length (firstn 8 t)) * le_value (skipn 8 t)) by (intros t; rewrite <- le_value_app, firstn_skipn; reflexivity).
    rewrite (C s). rewrite (C (skipn 8 s)). rewrite (C (skipn 8 (skipn 8 s))). rewrite !skipn_add. cbn [Nat.add]. rewrite !firstn_length, !skipn_length, L. cbn [Nat.sub Nat.min].
    rewrite (firstn_all2 (skipn 24 s)) by (rewrite skipn_length; lia). cbn [skipn]. change (256 ^ Z.of_nat 8) with (2 ^ 64). change (2 ^ 128) with (2 ^ 64 * 2 ^ 64). change (2 ^ 192) with (2 ^ 64 * 2 ^ 64 * 2 ^ 64). ring. }
  destruct E as (-> & R0 & R1 & R2 & R3).
  cbn [minimal_loop Nat.mul Nat.add Nat.eqb]. fold v0 v1 v2 v3. clearbody v0 v1 v2 v3. cbn [nth order]. unfold ell. symmetry.
  repeat match goal with |- context [?a >? ?b] => rewrite (Z.gtb_ltb a b) end.
  repeat match goal with |- _ = (if ?b then _ else _) => destruct b eqn:? end;
  repeat match goal with H : (_ <? _) = true |- _ => apply Z.ltb_lt in H | H : (_ <? _) = false |- _ => apply Z.ltb_ge in H end;
  (apply Z.ltb_lt || apply Z.ltb_ge); lia.
Qed.
