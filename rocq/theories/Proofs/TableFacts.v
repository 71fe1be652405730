(** The precomputed tables contain the multiples of the base point that they should; the base point has order dividing ell. *)
From Coq Require Import Ring Field.
From Verif.Model Require Import Base Limb EdwardsTable EdwardsCode Edwards.
From Verif.Spec Require Import EdSpec.
From Verif.Proofs Require Import Util LimbFacts RadixFacts FieldFacts CurveFacts GroupFacts FieldEl FieldBytes PointFacts TableCert.
Open Scope F_scope.

(** ** Comparison modulo p without division *)
Definition red (x : Z) : Z := (Z.land x (2 ^ 255 - 1) + 19 * Z.shiftr x 255)%Z.
Definition eqp (x y : Z) : bool := let d := red (red (x - y)) in ((d =? 0) || (d =? 2 ^ 255 - 19))%Z.
Lemma red_ok x : of_Z (red x) = of_Z x.
Proof.
  apply of_Z_div. unfold red. rewrite (Z.land_ones x 255) || idtac. change (2 ^ 255 - 1)%Z with (Z.ones 255). rewrite Z.land_ones, Z.shiftr_div_pow2 by lia.
  exists (- (x / 2 ^ 255))%Z. rewrite p_val. pose proof (Z.div_mod x (2 ^ 255) ltac:(lia)). lia.
Qed.
Lemma eqp_ok x y : eqp x y = true -> of_Z x = of_Z y.
Proof.
  unfold eqp. intros H. assert (E : of_Z (red (red (x - y))) = 0).
  { apply orb_true_iff in H. destruct H as [H | H]; apply Z.eqb_eq in H; rewrite H; [exact eq_refl |]. rewrite <- p_val. apply of_Z_0_iff. apply Z.divide_refl. }
  rewrite !red_ok, of_Z_sub in E. apply fsub_0. exact E.
Qed.

(** ** Additions and doublings in terms of y + x and y - x *)
Definition rel (e : Z * Z) (P : point) : Prop := on_curve P /\ of_Z (fst e) = py P + px P /\ of_Z (snd e) = py P - px P.
Definition add_ok (e1 : Z * Z) (t1 : Z) (e2 : Z * Z) (w2 : Z) (e3 : Z * Z) : bool :=
  let c := red (t1 * w2) in let A := (fst e1 * fst e2)%Z in let B := (snd e1 * snd e2)%Z in
  eqp ((fst e3 - snd e3) * (2 + c)) (2 * (A - B)) && eqp ((fst e3 + snd e3) * (2 - c)) (2 * (A + B)).
Lemma halves a b x y : a - b = of_Z 2 * x -> a + b = of_Z 2 * y -> a = y + x /\ b = y - x.
Proof.
  intros H1 H2. split; apply (f_cancel _ _ (of_Z 2) two_nz).
  - transitivity ((a + b) + (a - b)); [ring |]. rewrite H1, H2. ring.
  - transitivity ((a + b) - (a - b)); [ring |]. rewrite H1, H2. ring.
Qed.
Lemma add_rel x1 y1 x2 y2 a b c : curve x1 y1 -> curve x2 y2 -> c = of_Z 2 * (fd * x1 * x2 * y1 * y2) ->
  (a - b) * (of_Z 2 + c) = of_Z 2 * ((y1 + x1) * (y2 + x2) - (y1 - x1) * (y2 - x2)) -> (a + b) * (of_Z 2 - c) = of_Z 2 * ((y1 + x1) * (y2 + x2) + (y1 - x1) * (y2 - x2)) ->
  a = (y1 * y2 + x1 * x2) / (1 - fd * x1 * x2 * y1 * y2) + (x1 * y2 + x2 * y1) / (1 + fd * x1 * x2 * y1 * y2) /\
  b = (y1 * y2 + x1 * x2) / (1 - fd * x1 * x2 * y1 * y2) - (x1 * y2 + x2 * y1) / (1 + fd * x1 * x2 * y1 * y2).
Proof.
  intros C1 C2 E H1 H2. pose proof (dx_nz _ _ _ _ C1 C2) as D1. pose proof (dy_nz _ _ _ _ C1 C2) as D2. set (dl := fd * x1 * x2 * y1 * y2) in *. subst c. clearbody dl.
  apply halves.
  - apply (f_cancel _ _ (of_Z 2 * (1 + dl)) (mul_nz _ _ two_nz D1)). transitivity ((a - b) * (of_Z 2 + of_Z 2 * dl)); [ring |]. rewrite H1. field. exact D1.
  - apply (f_cancel _ _ (of_Z 2 * (1 - dl)) (mul_nz _ _ two_nz D2)). transitivity ((a + b) * (of_Z 2 - of_Z 2 * dl)); [ring |]. rewrite H2. field. exact D2.
Qed.
Lemma add_ok_rel e1 t1 e2 w2 e3 P1 P2 : rel e1 P1 -> of_Z t1 = of_Z 2 * fd * px P1 * py P1 -> rel e2 P2 -> of_Z w2 = px P2 * py P2 -> add_ok e1 t1 e2 w2 e3 = true -> rel e3 (padd P1 P2).
Proof.
  destruct P1 as [x1 y1], P2 as [x2 y2]. unfold rel. cbn [px py]. intros (C1 & A1 & B1) T (C2 & A2 & B2) W H. unfold add_ok in H. apply andb_true_iff in H. destruct H as [H1 H2]. apply eqp_ok in H1, H2.
  split; [exact (padd_on _ _ C1 C2) |]. apply mk_on in C1, C2. rewrite padd_mk. cbn [px py].
  repeat rewrite ?of_Z_mul, ?of_Z_add, ?of_Z_sub, ?red_ok in H1. repeat rewrite ?of_Z_mul, ?of_Z_add, ?of_Z_sub, ?red_ok in H2. rewrite A1, B1, A2, B2, T, W in H1. rewrite A1, B1, A2, B2, T, W in H2.
  apply (add_rel x1 y1 x2 y2 _ _ (of_Z 2 * fd * x1 * y1 * (x2 * y2)) C1 C2); [ring | exact H1 | exact H2].
Qed.
Definition dbl_ok (e1 e3 : Z * Z) : bool :=
  let A := (fst e1 * fst e1)%Z in let B := (snd e1 * snd e1)%Z in let c := red (fst e1 * snd e1) in
  eqp ((fst e3 - snd e3) * c) (A - B) && eqp ((fst e3 + snd e3) * (2 - c)) (A + B).
Lemma dbl_ok_rel e1 e3 P : rel e1 P -> dbl_ok e1 e3 = true -> rel e3 (padd P P).
Proof.
  destruct P as [x y]. unfold rel. cbn [px py]. intros (C & A1 & B1) H. unfold dbl_ok in H. apply andb_true_iff in H. destruct H as [H1 H2]. apply eqp_ok in H1, H2.
  split; [exact (padd_on _ _ C C) |]. apply mk_on in C. rewrite padd_mk. cbn [px py].
  repeat rewrite ?of_Z_mul, ?of_Z_add, ?of_Z_sub, ?red_ok in H1. repeat rewrite ?of_Z_mul, ?of_Z_add, ?of_Z_sub, ?red_ok in H2. rewrite A1, B1 in H1. rewrite A1, B1 in H2.
  set (a := of_Z (fst e3)) in *. set (b := of_Z (snd e3)) in *. clearbody a b. clear A1 B1. pose proof C as C'. unfold curve in C'.
  assert (K : (y + x) * (y - x) = 1 + fd * x * x * y * y) by (transitivity (y * y - x * x); [ring |]; rewrite C'; ring). rewrite K in H1, H2.
  apply (add_rel x y x y _ _ (of_Z 2 * (fd * x * x * y * y)) C C); [exact eq_refl | |].
  - transitivity (of_Z 2 * ((a - b) * (1 + fd * x * x * y * y))); [ring |]. rewrite H1. ring.
  - transitivity (of_Z 2 * ((a + b) * (of_Z 2 - (1 + fd * x * x * y * y)))); [ring |]. rewrite H2. ring.
Qed.
(** 2 t = d (y+x - (y-x)) (y+x + (y-x)), for t = 2 d x y *)
Definition d_int : Z := d_val.
Definition t_ok (e : Z * Z) (t : Z) : bool := eqp (2 * t) (d_int * red ((fst e - snd e) * (fst e + snd e))).
Lemma t_ok_rel e t P : rel e P -> t_ok e t = true -> of_Z t = of_Z 2 * fd * px P * py P.
Proof.
  destruct P as [x y]. unfold rel. cbn [px py]. intros (_ & A & B) H. apply eqp_ok in H. repeat rewrite ?of_Z_mul, ?of_Z_add, ?of_Z_sub, ?red_ok in H. unfold d_int in H. rewrite <- d_eq in H. rewrite A, B in H.
  apply (f_cancel _ _ (of_Z 2) two_nz). transitivity (of_Z 2 * of_Z t); [ring |]. rewrite H. ring.
Qed.
(** 4 w = (y+x - (y-x)) (y+x + (y-x)), for w = x y *)
Definition w_ok (e : Z * Z) (w : Z) : bool := eqp (4 * w) ((fst e - snd e) * (fst e + snd e)).
Lemma w_ok_rel e w P : rel e P -> w_ok e w = true -> of_Z w = px P * py P.
Proof.
  destruct P as [x y]. unfold rel. cbn [px py]. intros (_ & A & B) H. apply eqp_ok in H. repeat rewrite ?of_Z_mul, ?of_Z_add, ?of_Z_sub in H. rewrite A, B in H.
  apply (f_cancel _ _ (of_Z 2 * of_Z 2) (mul_nz _ _ two_nz two_nz)). transitivity (of_Z 4 * of_Z w); [ring |]. rewrite H. ring.
Qed.

(** ** The base point *)
Lemma base_on : on_curve base_point.
Proof.
  unfold base_point. apply on_mk. unfold curve. rewrite d_eq. unfold f1. rewrite <- !of_Z_mul, <- of_Z_add, <- of_Z_sub. apply of_Z_eq. rewrite p_def. vm_compute. reflexivity.
Qed.
Lemma base_rel : rel ((By + Bx)%Z, (By - Bx)%Z) base_point.
Proof. split; [exact base_on |]. cbn [fst snd]. rewrite of_Z_add, of_Z_sub. split; exact eq_refl. Qed.
(** y = 4/5, and x is even. *)
Lemma base_y : of_Z 5 * py base_point = of_Z 4 /\ (fval (px base_point) mod 2 = 0)%Z.
Proof.
  split; [|vm_compute; reflexivity]. change (py base_point) with (of_Z By). rewrite <- of_Z_mul. apply of_Z_eq. rewrite p_def. vm_compute. reflexivity.
Qed.

(** ** The rows *)
Definition ent (q : PreComputedGroupElement) : Z * Z := (fe (yPlusX q), fe (yMinusX q)).
Definition fe_ok (h : FieldElement) : bool := (length h =? 10)%nat && forallb (fun '(v, i) => (fst i <=? v)%Z && (v <=? snd i)%Z) (combine h (lim 101)).
Definition pre_ok (q : PreComputedGroupElement) : bool := fe_ok (yPlusX q) && fe_ok (yMinusX q) && fe_ok (xy2d q).
Lemma fe_ok_fv h : fe_ok h = true -> fv 101 h (feF h).
Proof. intros H. apply andb_true_iff in H. destruct H as [L H]. apply Nat.eqb_eq in L. apply fv_const; [exact H | exact L | exact eq_refl]. Qed.
Lemma pre_repr q P : pre_ok q = true -> rel (ent q) P -> of_Z (fe (xy2d q)) = of_Z 2 * fd * px P * py P -> repr_pre q P.
Proof.
  intros H (C & A & B) T. apply andb_true_iff in H. destruct H as [H H3]. apply andb_true_iff in H. destruct H as [H1 H2].
  split; [exact C |]. split; [exact (fv_eq _ _ _ _ (fe_ok_fv _ H1) A) |]. split; [exact (fv_eq _ _ _ _ (fe_ok_fv _ H2) B) | exact (fv_eq _ _ _ _ (fe_ok_fv _ H3) T)].
Qed.
Fixpoint chain_ok (e1 : Z * Z) (w : Z) (prev : PreComputedGroupElement) (row : list PreComputedGroupElement) : bool :=
  match row with
  | [] => true
  | q :: r => add_ok (ent prev) (fe (xy2d prev)) e1 w (ent q) && t_ok (ent q) (fe (xy2d q)) && chain_ok e1 w q r
  end.
Definition row_ok (first : Z * Z) (w : Z) (row : list PreComputedGroupElement) : bool :=
  match row with
  | [] => false
  | q :: r => (length row =? 8)%nat && eqp (fst first) (fst (ent q)) && eqp (snd first) (snd (ent q)) && w_ok (ent q) w && t_ok (ent q) (fe (xy2d q)) && chain_ok (ent q) w q r
  end.
Fixpoint dbls_ok (e : Z * Z) (ds : list (Z * Z)) : bool := match ds with [] => true | f :: r => dbl_ok e f && dbls_ok f r end.
Fixpoint rows_ok (first : Z * Z) (rows : list (list PreComputedGroupElement)) (certs : list (Z * list (Z * Z))) : bool :=
  match rows, certs with
  | row :: rows', (w, ds) :: certs' =>
      row_ok first w row &&
      match rows' with
      | [] => true
      | _ => let next := ent (hd pre0 (hd [] rows')) in (length ds =? 4)%nat && dbls_ok (ent (last row pre0)) (ds ++ [next]) && rows_ok next rows' certs'
      end
  | [], _ => true
  | _, _ => false
  end.
Lemma rel_eq e f P : eqp (fst e) (fst f) = true -> eqp (snd e) (snd f) = true -> rel e P -> rel f P.
Proof. intros H1 H2 (C & A & B). apply eqp_ok in H1, H2. split; [exact C |]. rewrite <- H1, <- H2. split; [exact A | exact B]. Qed.
Definition known (q : PreComputedGroupElement) (P : point) : Prop := rel (ent q) P /\ of_Z (fe (xy2d q)) = of_Z 2 * fd * px P * py P.
Lemma zmul_succ n P : on_curve P -> (0 <= n)%Z -> padd (zmul n P) P = zmul (n + 1) P.
Proof. intros C N. rewrite zmul_add by exact C. rewrite zmul_1. exact eq_refl. Qed.
Lemma chain_known P e1 w row : on_curve P -> rel e1 P -> of_Z w = px P * py P -> forall prev n, (0 <= n)%Z -> known prev (zmul n P) -> chain_ok e1 w prev row = true ->
  forall j, (j < length row)%nat -> known (nth j row pre0) (zmul (n + 1 + Z.of_nat j) P).
Proof.
  intros C R W. induction row as [|q row IH]; intros prev n N K H j J; cbn [length] in J; [lia |]. cbn [chain_ok] in H. apply andb_true_iff in H. destruct H as [H H3]. apply andb_true_iff in H. destruct H as [H1 H2].
  assert (Kq : known q (zmul (n + 1) P)).
  { destruct K as [K1 K2]. pose proof (add_ok_rel _ _ _ _ _ _ _ K1 K2 R W H1) as Rq. rewrite zmul_succ in Rq by (assumption || lia). split; [exact Rq | exact (t_ok_rel _ _ _ Rq H2)]. }
  destruct j as [|j]; cbn [nth].
  - change (Z.of_nat 0) with 0%Z. rewrite Z.add_0_r. exact Kq.
  - replace (n + 1 + Z.of_nat (S j))%Z with ((n + 1) + 1 + Z.of_nat j)%Z by lia. apply (IH q); [lia | exact Kq | exact H3 | lia].
Qed.
Lemma row_known P first w row : rel first P -> row_ok first w row = true -> length row = 8%nat /\ forall j, (j < 8)%nat -> known (nth j row pre0) (zmul (Z.of_nat j + 1) P).
Proof.
  intros R H. destruct row as [|q r]; [discriminate |]. unfold row_ok in H. repeat (apply andb_true_iff in H; let X := fresh "X" in destruct H as [H X]). apply Nat.eqb_eq in H. split; [exact H |].
  pose proof (rel_eq _ _ _ X3 X2 R) as Rq. pose proof (w_ok_rel _ _ _ Rq X1) as W. pose proof (t_ok_rel _ _ _ Rq X0) as T. assert (C : on_curve P) by (destruct R as [C _]; exact C).
  assert (K1 : known q (zmul 1 P)) by (rewrite zmul_1; split; assumption). intros [|j] J.
  - change (Z.of_nat 0 + 1)%Z with 1%Z. exact K1.
  - cbn [nth length] in *. replace (Z.of_nat (S j) + 1)%Z with (1 + 1 + Z.of_nat j)%Z by lia. assert (J' : (j < length r)%nat) by lia. assert (O : (0 <= 1)%Z) by lia. exact (chain_known P (ent q) w r C Rq W q 1 O K1 X j J').
Qed.
Lemma zmul_dbl n P : on_curve P -> padd (zmul n P) (zmul n P) = zmul (2 * n) P.
Proof. intros C. rewrite <- zmul_add by exact C. replace (n + n)%Z with (2 * n)%Z by lia. exact eq_refl. Qed.
Lemma last_change {A} (ds : list A) : forall f e, last (f :: ds) e = last ds f.
Proof. induction ds as [|g ds IH]; intros f e; [reflexivity |]. change (last (f :: g :: ds) e) with (last (g :: ds) e). rewrite !IH. reflexivity. Qed.
Lemma dbls_rel P ds : on_curve P -> forall e n, rel e (zmul n P) -> dbls_ok e ds = true -> rel (last ds e) (zmul (2 ^ Z.of_nat (length ds) * n) P).
Proof.
  intros C. induction ds as [|f ds IH]; intros e n R H; cbn [length].
  - change (2 ^ Z.of_nat 0)%Z with 1%Z. rewrite Z.mul_1_l. cbn [last]. exact R.
  - cbn [dbls_ok] in H. apply andb_true_iff in H. destruct H as [H1 H2]. pose proof (dbl_ok_rel _ _ _ R H1) as R2. rewrite zmul_dbl in R2 by exact C.
    specialize (IH f (2 * n)%Z R2 H2). rewrite Nat2Z.inj_succ, Z.pow_succ_r by lia. replace (2 * 2 ^ Z.of_nat (length ds) * n)%Z with (2 ^ Z.of_nat (length ds) * (2 * n))%Z by ring.
    rewrite last_change. exact IH.
Qed.
Lemma rows_known rows : forall first certs P, rel first P -> rows_ok first rows certs = true ->
  forall i j, (i < length rows)%nat -> (j < 8)%nat -> known (nth j (nth i rows []) pre0) (zmul ((Z.of_nat j + 1) * 256 ^ Z.of_nat i) P).
Proof.
  induction rows as [|row rows IH]; intros first certs P R H i j I J; cbn [length] in I; [lia |]. destruct certs as [|[w ds] certs]; [discriminate |].
  cbn [rows_ok] in H. apply andb_true_iff in H. destruct H as [H1 H2]. destruct (row_known P first w row R H1) as [L K]. assert (C : on_curve P) by (destruct R as [C _]; exact C).
  destruct i as [|i]; cbn [nth].
  - change (256 ^ Z.of_nat 0)%Z with 1%Z. rewrite Z.mul_1_r. exact (K j J).
  - destruct rows as [|row2 rows2]; [cbn [length] in I; lia |]. apply andb_true_iff in H2. destruct H2 as [H2 H3]. apply andb_true_iff in H2. destruct H2 as [H2 H4]. apply Nat.eqb_eq in H2.
    assert (R2 : rel (ent (hd pre0 (hd [] (row2 :: rows2)))) (zmul 256 P)).
    { pose proof (proj1 (K 7%nat ltac:(lia))) as R8. replace (nth 7 row pre0) with (last row pre0) in R8. 2: { clear - L. do 8 (destruct row as [|? row]; [discriminate |]). destruct row; [reflexivity | discriminate]. }
      change (Z.of_nat 7 + 1)%Z with 8%Z in R8. pose proof (dbls_rel P _ C _ _ R8 H4) as RL. rewrite last_last in RL. rewrite app_length, H2 in RL. exact RL. }
    rewrite Nat2Z.inj_succ, Z.pow_succ_r by lia. replace ((Z.of_nat j + 1) * (256 * 256 ^ Z.of_nat i))%Z with ((Z.of_nat j + 1) * 256 ^ Z.of_nat i * 256)%Z by ring. rewrite zmul_mul by exact C.
    apply (IH _ certs _ R2 H3); [cbn [length] in *; lia | exact J].
Qed.

#[local] Opaque zmul.
Lemma base_rows_ok : rows_ok ((By + Bx)%Z, (By - Bx)%Z) base_table row_certs = true.
Proof. vm_cast_no_check (eq_refl true). Qed.

Lemma base_shape : length base_table = 32%nat /\ forallb (fun r => (length r =? 8)%nat && forallb pre_ok r) base_table = true.
Proof. split; [reflexivity |]. vm_cast_no_check (eq_refl true). Qed.
Lemma base_known i j : (i < 32)%nat -> (j < 8)%nat -> known (nth j (nth i base_table []) pre0) (zmul ((Z.of_nat j + 1) * 256 ^ Z.of_nat i) base_point).
Proof. intros I J. destruct base_shape as [L _]. apply (rows_known base_table _ _ _ base_rel base_rows_ok); [rewrite L; exact I | exact J]. Qed.
Lemma base_row_length i : (i < 32)%nat -> length (nth i base_table []) = 8%nat.
Proof. intros I. destruct base_shape as [L H]. rewrite forallb_forall in H. specialize (H (nth i base_table []) ltac:(apply nth_In; lia)). apply andb_true_iff in H. apply Nat.eqb_eq. exact (proj1 H). Qed.
Theorem base_table_spec i j : (i < 32)%nat -> (j < 8)%nat -> repr_pre (nth j (nth i base_table []) pre0) (zmul ((Z.of_nat j + 1) * 256 ^ Z.of_nat i) base_point).
Proof.
  intros I J. destruct (base_known i j I J) as [R T]. apply pre_repr; [|exact R | exact T].
  pose proof (base_row_length i I) as LR. destruct base_shape as [L H]. rewrite forallb_forall in H. specialize (H (nth i base_table []) ltac:(apply nth_In; lia)). apply andb_true_iff in H. destruct H as [_ H].
  rewrite forallb_forall in H. apply H. apply nth_In. lia.
Qed.

(** ** Odd multiples of the base point *)
Definition b_ (k : nat) : PreComputedGroupElement := nth (k - 1) (nth 0 base_table []) pre0.
Definition bi_ (k : nat) : PreComputedGroupElement := nth k bi_table pre0.
Definition same_ok (a b : PreComputedGroupElement) : bool := eqp (fst (ent a)) (fst (ent b)) && eqp (snd (ent a)) (snd (ent b)) && eqp (fe (xy2d a)) (fe (xy2d b)).
Definition plus2_ok (a b : PreComputedGroupElement) : bool := add_ok (ent a) (fe (xy2d a)) (ent (b_ 2)) w_2B (ent b) && t_ok (ent b) (fe (xy2d b)).
Definition w_1B : Z := fst (hd (0%Z, []) row_certs).
Lemma bi_ok : (forallb pre_ok bi_table && (length bi_table =? 8)%nat && w_ok (ent (b_ 2)) w_2B &&
  same_ok (b_ 1) (bi_ 0) && same_ok (b_ 3) (bi_ 1) && same_ok (b_ 5) (bi_ 2) && same_ok (b_ 7) (bi_ 3) && plus2_ok (bi_ 3) (bi_ 4) && plus2_ok (bi_ 4) (bi_ 5) && plus2_ok (bi_ 5) (bi_ 6) && plus2_ok (bi_ 6) (bi_ 7))%bool = true.
Proof. vm_cast_no_check (eq_refl true). Qed.
Lemma b_known k n : (1 <= k <= 8)%nat -> n = Z.of_nat k -> known (b_ k) (zmul n base_point).
Proof.
  intros K ->. unfold b_. assert (J : (k - 1 < 8)%nat) by lia. assert (I : (0 < 32)%nat) by lia. pose proof (base_known 0 (k - 1) I J) as B. change (256 ^ Z.of_nat 0)%Z with 1%Z in B. rewrite Z.mul_1_r in B.
  replace (Z.of_nat (k - 1) + 1)%Z with (Z.of_nat k) in B by lia. exact B.
Qed.
Lemma same_known a b P : same_ok a b = true -> known a P -> known b P.
Proof.
  intros H [R T]. apply andb_true_iff in H. destruct H as [H H3]. apply andb_true_iff in H. destruct H as [H1 H2]. pose proof (rel_eq _ _ _ H1 H2 R) as R'. split; [exact R' |]. apply eqp_ok in H3. rewrite <- H3. exact T.
Qed.
Lemma plus2_known a b n : w_ok (ent (b_ 2)) w_2B = true -> plus2_ok a b = true -> known a (zmul n base_point) -> known b (zmul (n + 2) base_point).
Proof.
  intros HW H [R T]. apply andb_true_iff in H. destruct H as [H1 H2]. assert (K2 : known (b_ 2) (zmul 2 base_point)) by (apply b_known; lia).
  destruct K2 as [R2 T2]. pose proof (w_ok_rel _ _ _ R2 HW) as W. pose proof (add_ok_rel _ _ _ _ _ _ _ R T R2 W H1) as RR. rewrite <- zmul_add in RR by exact base_on. split; [exact RR | exact (t_ok_rel _ _ _ RR H2)].
Qed.
Theorem bi_table_spec j : (j < 8)%nat -> repr_pre (nth j bi_table pre0) (zmul (2 * Z.of_nat j + 1) base_point).
Proof.
  pose proof bi_ok as H. do 10 (apply andb_true_iff in H; let X := fresh "X" in destruct H as [H X]). apply Nat.eqb_eq in X8.
  assert (K0 : known (bi_ 0) (zmul 1 base_point)) by (apply (same_known _ _ _ X6); apply b_known; lia).
  assert (K1 : known (bi_ 1) (zmul 3 base_point)) by (apply (same_known _ _ _ X5); apply b_known; lia).
  assert (K2 : known (bi_ 2) (zmul 5 base_point)) by (apply (same_known _ _ _ X4); apply b_known; lia).
  assert (K3 : known (bi_ 3) (zmul 7 base_point)) by (apply (same_known _ _ _ X3); apply b_known; lia).
  assert (K4 : known (bi_ 4) (zmul 9 base_point)) by (apply (plus2_known _ _ 7 X7 X2 K3)).
  assert (K5 : known (bi_ 5) (zmul 11 base_point)) by (apply (plus2_known _ _ 9 X7 X1 K4)).
  assert (K6 : known (bi_ 6) (zmul 13 base_point)) by (apply (plus2_known _ _ 11 X7 X0 K5)).
  assert (K7 : known (bi_ 7) (zmul 15 base_point)) by (apply (plus2_known _ _ 13 X7 X K6)).
  intros J. assert (K : known (bi_ j) (zmul (2 * Z.of_nat j + 1) base_point)) by (destruct j as [|j]; [exact K0 |]; destruct j as [|j]; [exact K1 |]; destruct j as [|j]; [exact K2 |]; destruct j as [|j]; [exact K3 |]; destruct j as [|j]; [exact K4 |]; destruct j as [|j]; [exact K5 |]; destruct j as [|j]; [exact K6 |]; destruct j as [|j]; [exact K7 |]; lia).
  destruct K as [R T]. apply pre_repr; [|exact R | exact T]. rewrite forallb_forall in H. apply H. apply nth_In. lia.
Qed.

(** ** ell times the base point *)
Definition step := (nat * Z * Z * (Z * Z * Z))%type.
Definition step_entry (s : step) : Z * Z :=
  let '(i, k, _, _) := s in let q := nth (Z.to_nat (Z.abs k) - 1) (nth i base_table []) pre0 in
  if (k <? 0)%Z then (fe (yMinusX q), fe (yPlusX q)) else ent q.
Definition step_ok (e : Z * Z * Z) (s : step) : bool :=
  let '(i, k, w, (a, b, t)) := s in
  ((i <? 32)%nat && negb (k =? 0)%Z && (Z.abs k <=? 8)%Z && w_ok (step_entry s) w && add_ok (fst e) (snd e) (step_entry s) w (a, b) && t_ok (a, b) t)%bool.
Definition step_res (s : step) : Z * Z * Z := let '(_, _, _, r) := s in r.
Definition step_val (s : step) : Z := let '(i, k, _, _) := s in (k * 256 ^ Z.of_nat i)%Z.
Fixpoint steps_ok (e : Z * Z * Z) (l : list step) : bool := match l with [] => true | s :: r => step_ok e s && steps_ok (step_res s) r end.
Definition known3 (e : Z * Z * Z) (P : point) : Prop := rel (fst e) P /\ of_Z (snd e) = of_Z 2 * fd * px P * py P.
Lemma rel_neg a b P : rel (a, b) P -> rel (b, a) (pneg P).
Proof.
  destruct P as [x y]. unfold rel. rewrite pneg_mk. cbn [fst snd px py]. intros (C & A & B). split; [rewrite <- pneg_mk; exact (pneg_on _ C) |]. rewrite A, B. split; ring.
Qed.
Lemma step_known e s n : step_ok e s = true -> known3 e (zmul n base_point) -> known3 (step_res s) (zmul (n + step_val s) base_point).
Proof.
  destruct s as [[[i k] w] [[a b] t]]. unfold step_ok. intros H [R T]. repeat (apply andb_true_iff in H; let X := fresh "X" in destruct H as [H X]).
  apply Nat.ltb_lt in H. apply negb_true_iff in X3. apply Z.eqb_neq in X3. apply Z.leb_le in X2.
  assert (RE : rel (step_entry (i, k, w, (a, b, t))) (zmul (step_val (i, k, w, (a, b, t))) base_point)).
  { unfold step_entry, step_val. assert (J : (Z.to_nat (Z.abs k) - 1 < 8)%nat) by lia. pose proof (proj1 (base_known i _ H J)) as RB. replace (Z.of_nat (Z.to_nat (Z.abs k) - 1) + 1)%Z with (Z.abs k) in RB by lia.
    destruct (k <? 0)%Z eqn:N; [apply Z.ltb_lt in N | apply Z.ltb_ge in N].
    - replace (k * 256 ^ Z.of_nat i)%Z with (- (Z.abs k * 256 ^ Z.of_nat i))%Z by (rewrite Z.abs_neq by lia; ring). rewrite zmul_opp by exact base_on. apply rel_neg. exact RB.
    - rewrite Z.abs_eq in * by lia. exact RB. }
  pose proof (w_ok_rel _ _ _ RE X1) as W. pose proof (add_ok_rel _ _ _ _ _ _ _ R T RE W X0) as RR. rewrite <- zmul_add in RR by exact base_on. split; [exact RR | exact (t_ok_rel _ _ _ RR X)].
Qed.
Lemma steps_known l : forall e n, steps_ok e l = true -> known3 e (zmul n base_point) -> known3 (last (map step_res l) e) (zmul (n + fold_right Z.add 0%Z (map step_val l)) base_point).
Proof.
  induction l as [|s l IH]; intros e n H K.
  - cbn [map last fold_right]. rewrite Z.add_0_r. exact K.
  - cbn [steps_ok] in H. apply andb_true_iff in H. destruct H as [H1 H2]. cbn [map fold_right]. rewrite last_change, Z.add_assoc. exact (IH _ _ H2 (step_known _ _ _ H1 K)).
Qed.
Definition dbl3_ok (e f : Z * Z * Z) : bool := dbl_ok (fst e) (fst f) && t_ok (fst f) (snd f).
Fixpoint dbl3s_ok (e : Z * Z * Z) (l : list (Z * Z * Z)) : bool := match l with [] => true | f :: r => dbl3_ok e f && dbl3s_ok f r end.
Lemma dbl3s_known l : forall e n, dbl3s_ok e l = true -> known3 e (zmul n base_point) -> known3 (last l e) (zmul (2 ^ Z.of_nat (length l) * n) base_point).
Proof.
  induction l as [|f l IH]; intros e n H K.
  - cbn [last length]. change (2 ^ Z.of_nat 0)%Z with 1%Z. rewrite Z.mul_1_l. exact K.
  - cbn [dbl3s_ok] in H. apply andb_true_iff in H. destruct H as [H1 H2]. apply andb_true_iff in H1. destruct H1 as [H1 H3]. destruct K as [R T].
    pose proof (dbl_ok_rel _ _ _ R H1) as RR. rewrite zmul_dbl in RR by exact base_on. rewrite last_change. cbn [length]. rewrite Nat2Z.inj_succ, Z.pow_succ_r by lia.
    replace (2 * 2 ^ Z.of_nat (length l) * n)%Z with (2 ^ Z.of_nat (length l) * (2 * n))%Z by ring. apply (IH f _ H2). split; [exact RR | exact (t_ok_rel _ _ _ RR H3)].
Qed.
Definition e_odd : Z * Z * Z := last (map step_res ell_odd) (1, 1, 0)%Z.
Definition e_dbl : Z * Z * Z := last ell_dbl e_odd.
Definition e_even : Z * Z * Z := last (map step_res ell_even) e_dbl.
Lemma ell_ok : (steps_ok (1, 1, 0)%Z ell_odd && dbl3s_ok e_odd ell_dbl && steps_ok e_dbl ell_even && eqp (fst (fst e_even)) 1 && eqp (snd (fst e_even)) 1)%bool = true.
Proof. vm_cast_no_check (eq_refl true). Qed.
Lemma ell_sum : (2 ^ Z.of_nat (length ell_dbl) * (0 + fold_right Z.add 0 (map step_val ell_odd)) + fold_right Z.add 0 (map step_val ell_even))%Z = ell.
Proof. vm_compute. reflexivity. Qed.
Theorem ell_base : zmul ell base_point = pzero.
Proof.
  pose proof ell_ok as H. do 4 (apply andb_true_iff in H; let X := fresh "X" in destruct H as [H X]).
  assert (K0 : known3 (1, 1, 0)%Z (zmul 0 base_point)).
  { rewrite zmul_0. change (known3 (1, 1, 0)%Z (mkP 0 1)). split; [split; [exact pzero_on |]; cbn [fst snd px py]; change (of_Z 1) with f1; split; ring |]. cbn [fst snd px py]. change (of_Z 0) with f0. ring. }
  pose proof (steps_known _ _ _ H K0) as K1. pose proof (dbl3s_known _ _ _ X2 K1) as K2. pose proof (steps_known _ _ _ X1 K2) as K3. rewrite ell_sum in K3. fold e_odd in K3. fold e_dbl in K3. fold e_even in K3. destruct K3 as [(C & A & B) _].
  apply eqp_ok in X0, X. rewrite X0 in A. rewrite X in B. revert A B C. clear. intros A B _. set (P := zmul ell base_point) in *. clearbody P. destruct P as [x y]. cbn [px py] in A, B. change (of_Z 1) with f1 in A, B.
  assert (E : x = 0). { apply (f_cancel _ _ (of_Z 2) two_nz). transitivity ((y + x) - (y - x)); [ring |]. rewrite <- A, <- B. ring. }
  subst x. assert (E : y = 1). { transitivity (y + 0); [ring |]. rewrite <- A. exact eq_refl. } subst y. exact eq_refl.
Qed.
