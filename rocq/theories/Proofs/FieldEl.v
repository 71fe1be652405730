(** Field elements as ten signed limbs: exactness of the operations of Model/Edwards.v, and their bounds. *)
From Verif.Model Require Import Base Limb EdwardsTable EdwardsCode Edwards.
From Verif.Spec Require Import EdSpec.
From Verif.Proofs Require Import Util LimbFacts RadixFacts FieldFacts.

(** The value of a field element *)
Definition fw : list Z := [2 ^ 0; 2 ^ 26; 2 ^ 51; 2 ^ 77; 2 ^ 102; 2 ^ 128; 2 ^ 153; 2 ^ 179; 2 ^ 204; 2 ^ 230].
Definition fe (h : list Z) : Z := dot fw h.
Definition feF (h : list Z) : F := of_Z (fe h).
(** Bounds in per cent of 2^25, 2^24, 2^25, ... *)
Definition lim (n : Z) : list itv := let e := (- (n * 2 ^ 25 / 100), n * 2 ^ 25 / 100) in let o := (- (n * 2 ^ 24 / 100), n * 2 ^ 24 / 100) in [e; o; e; o; e; o; e; o; e; o].
Definition fb (n : Z) (h : list Z) : Prop := okI h (lim n).

Lemma list10 (l : list Z) : length l = 10%nat -> exists f0 f1 f2 f3 f4 f5 f6 f7 f8 f9, l = [f0; f1; f2; f3; f4; f5; f6; f7; f8; f9].
Proof. intros L. do 10 (destruct l as [|? l]; [discriminate |]). destruct l; [|discriminate]. do 10 eexists. reflexivity. Qed.
Lemma fb_length n h : fb n h -> length h = 10%nat. Proof. intros H. apply okI_length in H. exact H. Qed.
Lemma fb_weaken n m h : n <= m -> fb n h -> fb m h.
Proof.
  intros L. unfold fb, lim. assert (n * 2 ^ 25 / 100 <= m * 2 ^ 25 / 100) by (apply Z.div_le_mono; lia). assert (n * 2 ^ 24 / 100 <= m * 2 ^ 24 / 100) by (apply Z.div_le_mono; lia).
  intros O. do 10 (let I := fresh in let O' := fresh in inversion_clear O as [|? ? ? ? I O']; rename O' into O; constructor; [unfold inI in *; cbn [fst snd] in *; lia |]). inversion O. constructor.
Qed.
Lemma fb_inv n h : fb n h -> exists f0 f1 f2 f3 f4 f5 f6 f7 f8 f9, h = [f0; f1; f2; f3; f4; f5; f6; f7; f8; f9] /\ Forall (fun x => - (n * 2 ^ 25 / 100) <= x <= n * 2 ^ 25 / 100) [f0; f2; f4; f6; f8] /\ Forall (fun x => - (n * 2 ^ 24 / 100) <= x <= n * 2 ^ 24 / 100) [f1; f3; f5; f7; f9].
Proof.
  intros H. destruct (list10 _ (fb_length _ _ H)) as (f0 & f1 & f2 & f3 & f4 & f5 & f6 & f7 & f8 & f9 & ->). exists f0, f1, f2, f3, f4, f5, f6, f7, f8, f9. split; [reflexivity |].
  unfold fb, lim in H. do 10 (let I := fresh in let O' := fresh in inversion_clear H as [|? ? ? ? I O']; rename O' into H). unfold inI in *; cbn [fst snd] in *. split; repeat (constructor; [assumption |]); constructor.
Qed.
Ltac inv_forall H := repeat (let I := fresh in let O' := fresh in inversion_clear H as [|? ? I O']; cbv beta in I; rename O' into H); clear H.
Lemma i32_small x : - 2 ^ 31 <= x < 2 ^ 31 -> i32 x = x.
Proof. intros H. unfold i32. pows. rewrite Z.mod_small by lia. lia. Qed.
Lemma lim_bound n : 0 <= n <= 3200 -> 0 <= n * 2 ^ 25 / 100 <= 2 ^ 30 /\ 0 <= n * 2 ^ 24 / 100 <= 2 ^ 29.
Proof.
  intros N. assert (H : forall x, 0 <= x -> 0 <= n * x / 100 <= 32 * x). { intros x X. split; [apply Z.div_pos; nia |]. apply Z.div_le_upper_bound; [lia |]. nia. }
  pose proof (H (2 ^ 25) ltac:(lia)). pose proof (H (2 ^ 24) ltac:(lia)). lia.
Qed.
Lemma lim_add n m x : 0 <= x -> n * x / 100 + m * x / 100 <= (n + m) * x / 100.
Proof. intros X. apply Z.div_le_lower_bound; [lia |]. pose proof (Z.mul_div_le (n * x) 100 ltac:(lia)). pose proof (Z.mul_div_le (m * x) 100 ltac:(lia)). lia. Qed.

Ltac fe_unfold := unfold fe, fw; cbn [dot].
Theorem FeAdd_spec n m f g : 0 <= n -> 0 <= m -> n + m <= 3200 -> fb n f -> fb m g -> fb (n + m) (FeAdd f g) /\ feF (FeAdd f g) = (feF f + feF g)%F.
Proof.
  intros N M NM Hf Hg. apply fb_inv in Hf, Hg. destruct Hf as (f0 & f1 & f2 & f3 & f4 & f5 & f6 & f7 & f8 & f9 & -> & He & Ho), Hg as (g0 & g1 & g2 & g3 & g4 & g5 & g6 & g7 & g8 & g9 & -> & Ke & Ko). inv_forall He. inv_forall Ho. inv_forall Ke. inv_forall Ko.
  pose proof (lim_bound (n + m) ltac:(lia)) as [B1 B2]. pose proof (lim_add n m (2 ^ 25) ltac:(lia)). pose proof (lim_add n m (2 ^ 24) ltac:(lia)).
  unfold FeAdd. cbn [map2]. rewrite !i32_small by lia. split.
  - unfold fb, lim. repeat (constructor; [unfold inI; cbn [fst snd]; lia |]). constructor.
  - unfold feF. rewrite <- of_Z_add. f_equal. fe_unfold. ring.
Qed.
Theorem FeSub_spec n m f g : 0 <= n -> 0 <= m -> n + m <= 3200 -> fb n f -> fb m g -> fb (n + m) (FeSub f g) /\ feF (FeSub f g) = (feF f - feF g)%F.
Proof.
  intros N M NM Hf Hg. apply fb_inv in Hf, Hg. destruct Hf as (f0 & f1 & f2 & f3 & f4 & f5 & f6 & f7 & f8 & f9 & -> & He & Ho), Hg as (g0 & g1 & g2 & g3 & g4 & g5 & g6 & g7 & g8 & g9 & -> & Ke & Ko). inv_forall He. inv_forall Ho. inv_forall Ke. inv_forall Ko.
  pose proof (lim_bound (n + m) ltac:(lia)) as [B1 B2]. pose proof (lim_add n m (2 ^ 25) ltac:(lia)). pose proof (lim_add n m (2 ^ 24) ltac:(lia)).
  unfold FeSub. cbn [map2]. rewrite !i32_small by lia. split.
  - unfold fb, lim. repeat (constructor; [unfold inI; cbn [fst snd]; lia |]). constructor.
  - unfold feF. rewrite <- of_Z_sub. f_equal. fe_unfold. ring.
Qed.
Theorem FeNeg_spec n f : 0 <= n <= 3200 -> fb n f -> fb n (FeNeg f) /\ feF (FeNeg f) = (- feF f)%F.
Proof.
  intros N Hf. apply fb_inv in Hf. destruct Hf as (f0 & f1 & f2 & f3 & f4 & f5 & f6 & f7 & f8 & f9 & -> & He & Ho). inv_forall He. inv_forall Ho.
  pose proof (lim_bound n ltac:(lia)) as [B1 B2].
  unfold FeNeg. cbn [map]. rewrite !i32_small by lia. split.
  - unfold fb, lim. repeat (constructor; [unfold inI; cbn [fst snd]; lia |]). constructor.
  - unfold feF. rewrite <- of_Z_opp. f_equal. fe_unfold. ring.
Qed.

(** ** Multiplication *)
Definition within (S T : list itv) : bool := (length S =? length T)%nat && forallb (fun '(a, b) => (fst b <=? fst a) && (snd a <=? snd b)) (combine S T).
Lemma within_ok st Q T : within Q T = true -> okI st Q -> okI st T.
Proof. intros H O. apply andb_true_iff in H. destruct H as [L H]. apply Nat.eqb_eq in L. apply (okI_weaken st Q); assumption. Qed.
Lemma okI_skipn st Q n : okI st Q -> okI (skipn n st) (skipn n Q).
Proof. intros O. revert n. induction O; intros [|n]; cbn [skipn]; try constructor; auto. Qed.
Lemma map_i32_id st Q : forallb (fits W32) Q = true -> okI st Q -> map i32 st = st.
Proof.
  intros H O. induction O as [|v i st Q V O IH]; [reflexivity |]. cbn [forallb] in H. apply andb_true_iff in H. destruct H as [H1 H2]. cbn [map]. rewrite IH by assumption. f_equal.
  apply (fits_wrap W32 i v H1 V).
Qed.
Definition combine_to (Q T : list itv) : bool := (length Q =? 10)%nat && match arun combine_code Q with None => false | Some R => forallb (fits W32) R && within R T end.
Lemma of_Z_div a b : (p25519 | a - b) -> of_Z a = of_Z b.
Proof. intros [q H]. apply of_Z_eq. replace a with (b + q * p25519) by lia. apply Z.mod_add. auto. Qed.
Lemma FeCombine_spec Q T h : combine_to Q T = true -> okI h Q -> okI (FeCombine h) T /\ feF (FeCombine h) = of_Z (fe h).
Proof.
  unfold combine_to. intros H O. apply andb_true_iff in H. destruct H as [L H]. apply Nat.eqb_eq in L. pose proof (okI_length _ _ O) as LH. rewrite L in LH.
  destruct (arun combine_code Q) as [R|] eqn:E; [|discriminate]. apply andb_true_iff in H. destruct H as [H1 H2].
  destruct (arun_ok _ _ _ _ O E) as [E1 E2]. unfold FeCombine. rewrite E1, (map_i32_id _ _ H1 E2). split; [apply (within_ok _ _ _ H2 E2) |].
  unfold feF, fe. apply of_Z_div. apply run_pres. rewrite LH. vm_compute. reflexivity.
Qed.
Lemma mul_value f g : length f = 10%nat -> length g = 10%nat -> exists R, fe (skipn mul_out (run id_wrap mul_code (f ++ g ++ repeat 0 mul_temps))) = fe f * fe g - (2 ^ 255 - 19) * R.
Proof.
  intros F G. destruct (list10 _ F) as (f0 & f1 & f2 & f3 & f4 & f5 & f6 & f7 & f8 & f9 & ->), (list10 _ G) as (g0 & g1 & g2 & g3 & g4 & g5 & g6 & g7 & g8 & g9 & ->).
  exists (2 ^ 1 * (f1 * g9) + 2 ^ 0 * (f2 * g8) + 2 ^ 26 * (f2 * g9) + 2 ^ 1 * (f3 * g7) + 2 ^ 26 * (f3 * g8) + 2 ^ 52 * (f3 * g9) + 2 ^ 0 * (f4 * g6) + 2 ^ 26 * (f4 * g7) + 2 ^ 51 * (f4 * g8) + 2 ^ 77 * (f4 * g9) + 2 ^ 1 * (f5 * g5) + 2 ^ 26 * (f5 * g6) + 2 ^ 52 * (f5 * g7) + 2 ^ 77 * (f5 * g8) + 2 ^ 103 * (f5 * g9) + 2 ^ 0 * (f6 * g4) + 2 ^ 26 * (f6 * g5) + 2 ^ 51 * (f6 * g6) + 2 ^ 77 * (f6 * g7) + 2 ^ 102 * (f6 * g8) + 2 ^ 128 * (f6 * g9) + 2 ^ 1 * (f7 * g3) + 2 ^ 26 * (f7 * g4) + 2 ^ 52 * (f7 * g5) + 2 ^ 77 * (f7 * g6) + 2 ^ 103 * (f7 * g7) + 2 ^ 128 * (f7 * g8) + 2 ^ 154 * (f7 * g9) + 2 ^ 0 * (f8 * g2) + 2 ^ 26 * (f8 * g3) + 2 ^ 51 * (f8 * g4) + 2 ^ 77 * (f8 * g5) + 2 ^ 102 * (f8 * g6) + 2 ^ 128 * (f8 * g7) + 2 ^ 153 * (f8 * g8) + 2 ^ 179 * (f8 * g9) + 2 ^ 1 * (f9 * g1) + 2 ^ 26 * (f9 * g2) + 2 ^ 52 * (f9 * g3) + 2 ^ 77 * (f9 * g4) + 2 ^ 103 * (f9 * g5) + 2 ^ 128 * (f9 * g6) + 2 ^ 154 * (f9 * g7) + 2 ^ 179 * (f9 * g8) + 2 ^ 205 * (f9 * g9)).
  cbv beta iota zeta delta [run id_wrap app repeat mul_code mul_out mul_temps fold_left step put ev get nth skipn fe fw dot].
  ring.
Qed.
Lemma square_value f : length f = 10%nat -> exists R, fe (skipn square_out (run id_wrap square_code (f ++ repeat 0 square_temps))) = fe f * fe f - (2 ^ 255 - 19) * R.
Proof.
  intros F. destruct (list10 _ F) as (f0 & f1 & f2 & f3 & f4 & f5 & f6 & f7 & f8 & f9 & ->).
  exists (2 ^ 1 * (f1 * f9) + 2 ^ 0 * (f2 * f8) + 2 ^ 26 * (f2 * f9) + 2 ^ 1 * (f3 * f7) + 2 ^ 26 * (f3 * f8) + 2 ^ 52 * (f3 * f9) + 2 ^ 0 * (f4 * f6) + 2 ^ 26 * (f4 * f7) + 2 ^ 51 * (f4 * f8) + 2 ^ 77 * (f4 * f9) + 2 ^ 1 * (f5 * f5) + 2 ^ 26 * (f5 * f6) + 2 ^ 52 * (f5 * f7) + 2 ^ 77 * (f5 * f8) + 2 ^ 103 * (f5 * f9) + 2 ^ 0 * (f6 * f4) + 2 ^ 26 * (f6 * f5) + 2 ^ 51 * (f6 * f6) + 2 ^ 77 * (f6 * f7) + 2 ^ 102 * (f6 * f8) + 2 ^ 128 * (f6 * f9) + 2 ^ 1 * (f7 * f3) + 2 ^ 26 * (f7 * f4) + 2 ^ 52 * (f7 * f5) + 2 ^ 77 * (f7 * f6) + 2 ^ 103 * (f7 * f7) + 2 ^ 128 * (f7 * f8) + 2 ^ 154 * (f7 * f9) + 2 ^ 0 * (f8 * f2) + 2 ^ 26 * (f8 * f3) + 2 ^ 51 * (f8 * f4) + 2 ^ 77 * (f8 * f5) + 2 ^ 102 * (f8 * f6) + 2 ^ 128 * (f8 * f7) + 2 ^ 153 * (f8 * f8) + 2 ^ 179 * (f8 * f9) + 2 ^ 1 * (f9 * f1) + 2 ^ 26 * (f9 * f2) + 2 ^ 52 * (f9 * f3) + 2 ^ 77 * (f9 * f4) + 2 ^ 103 * (f9 * f5) + 2 ^ 128 * (f9 * f6) + 2 ^ 154 * (f9 * f7) + 2 ^ 179 * (f9 * f8) + 2 ^ 205 * (f9 * f9)).
  cbv beta iota zeta delta [run id_wrap app repeat square_code square_out square_temps fold_left step put ev get nth skipn fe fw dot].
  ring.
Qed.
Lemma p_val : p25519 = 2 ^ 255 - 19. Proof. reflexivity. Qed.
Lemma of_Z_sub_p a R : of_Z (a - (2 ^ 255 - 19) * R) = of_Z a.
Proof. apply of_Z_div. exists (- R). rewrite p_val. ring. Qed.

Definition mul_okb (Q1 Q2 T : list itv) : bool :=
  (length Q1 =? 10)%nat && (length Q2 =? 10)%nat && match arun mul_code (Q1 ++ Q2 ++ repeat (0, 0) mul_temps) with None => false | Some R => combine_to (skipn mul_out R) T end.
Lemma okI_zeros n : okI (repeat 0 n) (repeat (0, 0) n).
Proof. induction n; cbn [repeat]; constructor; auto. unfold inI; cbn; lia. Qed.
Theorem FeMul_gen Q1 Q2 T f g : mul_okb Q1 Q2 T = true -> okI f Q1 -> okI g Q2 -> okI (FeMul f g) T /\ feF (FeMul f g) = (feF f * feF g)%F.
Proof.
  unfold mul_okb. intros H Of Og. apply andb_true_iff in H. destruct H as [H H3]. apply andb_true_iff in H. destruct H as [H1 H2]. apply Nat.eqb_eq in H1, H2.
  destruct (arun mul_code _) as [R|] eqn:E; [|discriminate]. assert (O : okI (f ++ g ++ repeat 0 mul_temps) (Q1 ++ Q2 ++ repeat (0, 0) mul_temps)) by (apply Forall2_app; [exact Of | apply Forall2_app; [exact Og | apply okI_zeros]]).
  destruct (arun_ok _ _ _ _ O E) as [E1 E2]. apply (okI_skipn _ _ mul_out) in E2. unfold FeMul. rewrite E1. destruct (FeCombine_spec _ _ _ H3 E2) as [C1 C2]. split; [exact C1 |]. rewrite C2.
  destruct (mul_value f g) as [R' V]; [rewrite (okI_length _ _ Of); exact H1 | rewrite (okI_length _ _ Og); exact H2 |]. rewrite V, of_Z_sub_p. unfold feF. apply of_Z_mul.
Qed.
Definition square_okb (Q1 T : list itv) : bool :=
  (length Q1 =? 10)%nat && match arun square_code (Q1 ++ repeat (0, 0) square_temps) with None => false | Some R => combine_to (skipn square_out R) T end.
Theorem FeSquare_gen Q1 T f : square_okb Q1 T = true -> okI f Q1 -> okI (FeSquare f) T /\ feF (FeSquare f) = (feF f * feF f)%F.
Proof.
  unfold square_okb. intros H Of. apply andb_true_iff in H. destruct H as [H1 H3]. apply Nat.eqb_eq in H1.
  destruct (arun square_code _) as [R|] eqn:E; [|discriminate]. assert (O : okI (f ++ repeat 0 square_temps) (Q1 ++ repeat (0, 0) square_temps)) by (apply Forall2_app; [exact Of | apply okI_zeros]).
  destruct (arun_ok _ _ _ _ O E) as [E1 E2]. apply (okI_skipn _ _ square_out) in E2. unfold FeSquare, feSquare. rewrite E1. destruct (FeCombine_spec _ _ _ H3 E2) as [C1 C2]. split; [exact C1 |]. rewrite C2.
  destruct (square_value f) as [R' V]; [rewrite (okI_length _ _ Of); exact H1 |]. rewrite V, of_Z_sub_p. unfold feF. apply of_Z_mul.
Qed.
Definition square2_okb (Q1 T : list itv) : bool :=
  (length Q1 =? 10)%nat && match arun square_code (Q1 ++ repeat (0, 0) square_temps) with None => false | Some R => match arun double_code (skipn square_out R) with None => false | Some R2 => combine_to R2 T end end.
Lemma double_value h : length h = 10%nat -> fe (run id_wrap double_code h) = 2 * fe h.
Proof.
  intros F. destruct (list10 _ F) as (f0 & f1 & f2 & f3 & f4 & f5 & f6 & f7 & f8 & f9 & ->).
  cbv beta iota zeta delta [run id_wrap double_code fold_left step put ev get nth fe fw dot]. ring.
Qed.
Theorem FeSquare2_gen Q1 T f : square2_okb Q1 T = true -> okI f Q1 -> okI (FeSquare2 f) T /\ feF (FeSquare2 f) = (of_Z 2 * (feF f * feF f))%F.
Proof.
  unfold square2_okb. intros H Of. apply andb_true_iff in H. destruct H as [H1 H3]. apply Nat.eqb_eq in H1.
  destruct (arun square_code _) as [R|] eqn:E; [|discriminate]. destruct (arun double_code _) as [R2|] eqn:ED; [|discriminate].
  assert (O : okI (f ++ repeat 0 square_temps) (Q1 ++ repeat (0, 0) square_temps)) by (apply Forall2_app; [exact Of | apply okI_zeros]).
  destruct (arun_ok _ _ _ _ O E) as [E1 E2]. apply (okI_skipn _ _ square_out) in E2. destruct (arun_ok _ _ _ _ E2 ED) as [D1 D2].
  unfold FeSquare2, feSquare. rewrite E1, D1. destruct (FeCombine_spec _ _ _ H3 D2) as [C1 C2]. split; [exact C1 |]. rewrite C2.
  rewrite double_value by (rewrite skipn_length, run_length, app_length, repeat_length, (okI_length _ _ Of), H1; reflexivity).
  destruct (square_value f) as [R' V]; [rewrite (okI_length _ _ Of); exact H1 |]. rewrite V, of_Z_mul, of_Z_sub_p. unfold feF. rewrite of_Z_mul. reflexivity.
Qed.
(** All multiplications take inputs up to 3.3 and produce 1.01. *)
Theorem FeMul_spec n m f g : n <= 330 -> m <= 330 -> fb n f -> fb m g -> fb 101 (FeMul f g) /\ feF (FeMul f g) = (feF f * feF g)%F.
Proof. intros N M Hf Hg. apply (FeMul_gen (lim 330) (lim 330)); [vm_compute; reflexivity | apply (fb_weaken n); assumption | apply (fb_weaken m); assumption]. Qed.
Theorem FeSquare_spec n f : n <= 330 -> fb n f -> fb 101 (FeSquare f) /\ feF (FeSquare f) = (feF f * feF f)%F.
Proof. intros N Hf. apply (FeSquare_gen (lim 330)); [vm_compute; reflexivity | apply (fb_weaken n); assumption]. Qed.
Theorem FeSquare2_spec n f : n <= 330 -> fb n f -> fb 101 (FeSquare2 f) /\ feF (FeSquare2 f) = (of_Z 2 * (feF f * feF f))%F.
Proof. intros N Hf. apply (FeSquare2_gen (lim 330)); [vm_compute; reflexivity | apply (fb_weaken n); assumption]. Qed.
(** No register of the multiplication, the squarings or the final carry chain leaves its 32 or 64 bits. *)
Definition mul_init (f g : list Z) : list Z := f ++ g ++ repeat 0 mul_temps.
Definition square_init (f : list Z) : list Z := f ++ repeat 0 square_temps.
Definition combine_exact (h : list Z) : Prop := no_overflow combine_code h /\ Forall (fun x => - 2 ^ 31 <= x < 2 ^ 31) (run id_wrap combine_code h).
Lemma combine_to_exact Q T h : combine_to Q T = true -> okI h Q -> combine_exact h.
Proof.
  unfold combine_to. intros H O. apply andb_true_iff in H. destruct H as [_ H]. destruct (arun combine_code Q) as [R|] eqn:E; [|discriminate]. apply andb_true_iff in H. destruct H as [H _].
  split; [exact (arun_no_overflow _ _ _ _ O E) |]. destruct (arun_ok _ _ _ _ O E) as [_ O2]. revert H. clear E O. induction O2 as [|v i st Q' V O' IH]; intros H; constructor.
  - cbn [forallb] in H. apply andb_true_iff in H. destruct H as [H _]. unfold fits in H. destruct V as [V1 V2]. apply andb_true_iff in H. destruct H as [A B]. apply Z.leb_le in A. first [apply Z.leb_le in B | apply Z.ltb_lt in B]. pows. lia.
  - apply IH. cbn [forallb] in H. apply andb_true_iff in H. exact (proj2 H).
Qed.
Theorem FeMul_no_overflow n m f g : n <= 330 -> m <= 330 -> fb n f -> fb m g ->
  no_overflow mul_code (mul_init f g) /\ combine_exact (skipn mul_out (run id_wrap mul_code (mul_init f g))).
Proof.
  intros N M Of Og. apply (fb_weaken n 330 _ N) in Of. apply (fb_weaken m 330 _ M) in Og. assert (H : mul_okb (lim 330) (lim 330) (lim 101) = true) by (vm_compute; reflexivity).
  unfold mul_okb in H. apply andb_true_iff in H. destruct H as [_ H]. destruct (arun mul_code _) as [R|] eqn:E; [|discriminate].
  assert (O : okI (mul_init f g) (lim 330 ++ lim 330 ++ repeat (0, 0) mul_temps)) by (apply Forall2_app; [exact Of | apply Forall2_app; [exact Og | apply okI_zeros]]).
  split; [exact (arun_no_overflow _ _ _ _ O E) |]. destruct (arun_ok _ _ _ _ O E) as [_ E2]. apply (okI_skipn _ _ mul_out) in E2. exact (combine_to_exact _ _ _ H E2).
Qed.
Theorem FeSquare_no_overflow n f : n <= 330 -> fb n f ->
  no_overflow square_code (square_init f) /\ combine_exact (skipn square_out (run id_wrap square_code (square_init f))) /\
  no_overflow double_code (skipn square_out (run id_wrap square_code (square_init f))) /\ combine_exact (run id_wrap double_code (skipn square_out (run id_wrap square_code (square_init f)))).
Proof.
  intros N Of. apply (fb_weaken n 330 _ N) in Of. assert (H : square_okb (lim 330) (lim 101) = true) by (vm_compute; reflexivity). assert (H2 : square2_okb (lim 330) (lim 101) = true) by (vm_compute; reflexivity).
  unfold square_okb in H. unfold square2_okb in H2. apply andb_true_iff in H. destruct H as [_ H]. apply andb_true_iff in H2. destruct H2 as [_ H2]. destruct (arun square_code _) as [R|] eqn:E; [|discriminate]. destruct (arun double_code _) as [R2|] eqn:ED; [|discriminate].
  assert (O : okI (square_init f) (lim 330 ++ repeat (0, 0) square_temps)) by (apply Forall2_app; [exact Of | apply okI_zeros]).
  destruct (arun_ok _ _ _ _ O E) as [_ E2]. apply (okI_skipn _ _ square_out) in E2. destruct (arun_ok _ _ _ _ E2 ED) as [_ D2].
  split; [exact (arun_no_overflow _ _ _ _ O E) |]. split; [exact (combine_to_exact _ _ _ H E2) |]. split; [exact (arun_no_overflow _ _ _ _ E2 ED) | exact (combine_to_exact _ _ _ H2 D2)].
Qed.
