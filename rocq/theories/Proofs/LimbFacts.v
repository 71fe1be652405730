(** Interval analysis and invariants for the straight-line code of Model/Limb.v. *)
From Verif.Model Require Import Base Limb.
From Verif.Proofs Require Import Util.

(** Exact integer arithmetic *)
Definition id_wrap : wrapping := fun _ x => x.

(** ** Intervals *)
Definition itv := (Z * Z)%type.
Definition inI (v : Z) (i : itv) : Prop := fst i <= v <= snd i.
Definition okI (st : list Z) (Q : list itv) : Prop := Forall2 inI st Q.
Definition fits (t : width) (i : itv) : bool :=
  match t with
  | W32 => (-2147483648 <=? fst i) && (snd i <=? 2147483647)
  | W64 => (-9223372036854775808 <=? fst i) && (snd i <=? 9223372036854775807)
  end.
Definition ck (t : width) (i : itv) : option itv := if fits t i then Some i else None.
Definition geti (Q : list itv) (r : nat) : itv := nth r Q (0, 0).
Fixpoint puti (Q : list itv) (r : nat) (v : itv) : list itv :=
  match Q, r with [], _ => [] | _ :: s, O => v :: s | a :: s, S r' => a :: puti s r' v end.
Definition addI (a b : itv) : itv := (fst a + fst b, snd a + snd b).
Definition subI (a b : itv) : itv := (fst a - snd b, snd a - fst b).
Definition mulI (a b : itv) : itv :=
  let p := fst a * fst b in let q := fst a * snd b in let r := snd a * fst b in let s := snd a * snd b in
  (Z.min (Z.min p q) (Z.min r s), Z.max (Z.max p q) (Z.max r s)).
Definition kI (z : Z) : itv := (z, z).
Definition shrI (a : itv) (k : Z) : itv := (Z.shiftr (fst a) k, Z.shiftr (snd a) k).

Fixpoint aev (Q : list itv) (e : ex) : option itv :=
  match e with
  | EV r => Some (geti Q r)
  | EK z => Some (kI z)
  | EAdd a b => match aev Q a, aev Q b with Some x, Some y => ck W64 (addI x y) | _, _ => None end
  | EMul a b => match aev Q a, aev Q b with Some x, Some y => ck W64 (mulI x y) | _, _ => None end
  | EMul32 a b => match aev Q a, aev Q b with Some x, Some y => ck W32 (mulI x y) | _, _ => None end
  end.
Definition aacc (v : itv) (o : option (list itv)) (f : bool * nat * Z) : option (list itv) :=
  match o with
  | None => None
  | Some Q =>
      let '(sub, y, m) := f in
      match ck W64 (mulI v (kI m)) with
      | None => None
      | Some p => match ck W64 (if sub then subI (geti Q y) p else addI (geti Q y) p) with None => None | Some i => Some (puti Q y i) end
      end
  end.
Definition astep (Q : list itv) (i : instr) : option (list itv) :=
  match i with
  | ISet r e => match aev Q e with Some v => Some (puti Q r v) | None => None end
  | ICarry t rnd x y k m =>
      if (x =? y)%nat || (k <=? 0) then None else
      let h := if rnd then 2 ^ (k - 1) else 0 in
      match ck t (addI (geti Q x) (kI h)) with
      | None => None
      | Some xr =>
          let c := shrI xr k in
          match ck t (mulI c (kI m)), ck t (mulI c (kI (2 ^ k))), ck t (- h, 2 ^ k - 1 - h) with
          | Some cm, Some _, Some nx => match ck t (addI (geti Q y) cm) with Some ny => Some (puti (puti Q y ny) x nx) | None => None end
          | _, _, _ => None
          end
      end
  | ITop t x k =>
      if k <=? 0 then None else
      match ck t (mulI (shrI (geti Q x) k) (kI (2 ^ k))), ck t (0, 2 ^ k - 1) with
      | Some _, Some nx => Some (puti Q x nx)
      | _, _ => None
      end
  | IFold x l => match fold_left (aacc (geti Q x)) l (Some Q) with Some Qn => Some (puti Qn x (0, 0)) | None => None end
  end.
Fixpoint arun (p : list instr) (Q : list itv) : option (list itv) :=
  match p with [] => Some Q | i :: r => match astep Q i with Some Qn => arun r Qn | None => None end end.

(** ** Soundness *)
Lemma get_ok st Q r : okI st Q -> inI (get st r) (geti Q r).
Proof.
  intros H. revert r. induction H; intros [|r]; unfold get, geti; cbn [nth].
  - split; cbn; lia.
  - split; cbn; lia.
  - assumption.
  - apply IHForall2.
Qed.
Lemma put_ok st Q r v i : okI st Q -> inI v i -> okI (put st r v) (puti Q r i).
Proof.
  intros H. revert r. induction H; intros [|r] Hv; cbn [put puti]; constructor; auto. apply IHForall2. assumption.
Qed.
Lemma ck_some t i j : ck t i = Some j -> j = i /\ fits t i = true.
Proof. unfold ck. destruct (fits t i); intros [= <-]; auto. Qed.
Lemma fits_wrap t i v : fits t i = true -> inI v i -> go_wrap t v = v.
Proof.
  unfold fits, inI, go_wrap. destruct t; intros H [A B]; apply andb_true_iff in H; destruct H as [H1 H2]; apply Z.leb_le in H1, H2.
  - unfold i32. pows. rewrite Z.mod_small by lia. lia.
  - unfold i64. pows. rewrite Z.mod_small by lia. lia.
Qed.
Lemma addI_ok a b i j : inI a i -> inI b j -> inI (a + b) (addI i j).
Proof. unfold inI, addI; cbn [fst snd]; lia. Qed.
Lemma subI_ok a b i j : inI a i -> inI b j -> inI (a - b) (subI i j).
Proof. unfold inI, subI; cbn [fst snd]; lia. Qed.
Lemma mul_between a lo hi b : lo <= a <= hi -> Z.min (lo * b) (hi * b) <= a * b <= Z.max (lo * b) (hi * b).
Proof.
  intros H. destruct (Z.le_gt_cases 0 b).
  - assert (lo * b <= a * b) by (apply Z.mul_le_mono_nonneg_r; lia). assert (a * b <= hi * b) by (apply Z.mul_le_mono_nonneg_r; lia). lia.
  - assert (hi * b <= a * b) by (apply Z.mul_le_mono_nonpos_r; lia). assert (a * b <= lo * b) by (apply Z.mul_le_mono_nonpos_r; lia). lia.
Qed.
Lemma mulI_ok a b i j : inI a i -> inI b j -> inI (a * b) (mulI i j).
Proof.
  unfold inI, mulI; cbn [fst snd]. intros A B.
  pose proof (mul_between _ _ _ b A). pose proof (mul_between _ _ _ (fst i) B). pose proof (mul_between _ _ _ (snd i) B).
  rewrite (Z.mul_comm (fst i) b), (Z.mul_comm (snd i) b), (Z.mul_comm (fst i) (fst j)), (Z.mul_comm (fst i) (snd j)), (Z.mul_comm (snd i) (fst j)), (Z.mul_comm (snd i) (snd j)) in *. lia.
Qed.
Lemma kI_ok z : inI z (kI z). Proof. unfold inI, kI; cbn; lia. Qed.
Lemma shrI_ok a i k : 0 <= k -> inI a i -> inI (Z.shiftr a k) (shrI i k).
Proof. unfold inI, shrI; cbn [fst snd]. intros K [A B]. rewrite !Z.shiftr_div_pow2 by lia. split; apply Z.div_le_mono; auto with zarith; apply Z.pow_pos_nonneg; lia. Qed.

Lemma aev_ok st Q e i : okI st Q -> aev Q e = Some i -> ev go_wrap st e = ev id_wrap st e /\ inI (ev id_wrap st e) i.
Proof.
  intros O. revert i. induction e; cbn [aev ev]; intros i H.
  - injection H as <-. split; [reflexivity | apply get_ok; assumption].
  - injection H as <-. split; [reflexivity | apply kI_ok].
  - destruct (aev Q e1) as [x|], (aev Q e2) as [y|]; try discriminate. destruct (IHe1 _ eq_refl) as [E1 I1], (IHe2 _ eq_refl) as [E2 I2].
    apply ck_some in H. destruct H as [-> F]. rewrite E1, E2. pose proof (addI_ok _ _ _ _ I1 I2) as I. rewrite (fits_wrap _ _ _ F I). split; [reflexivity | exact I].
  - destruct (aev Q e1) as [x|], (aev Q e2) as [y|]; try discriminate. destruct (IHe1 _ eq_refl) as [E1 I1], (IHe2 _ eq_refl) as [E2 I2].
    apply ck_some in H. destruct H as [-> F]. rewrite E1, E2. pose proof (mulI_ok _ _ _ _ I1 I2) as I. rewrite (fits_wrap _ _ _ F I). split; [reflexivity | exact I].
  - destruct (aev Q e1) as [x|], (aev Q e2) as [y|]; try discriminate. destruct (IHe1 _ eq_refl) as [E1 I1], (IHe2 _ eq_refl) as [E2 I2].
    apply ck_some in H. destruct H as [-> F]. rewrite E1, E2. pose proof (mulI_ok _ _ _ _ I1 I2) as I. rewrite (fits_wrap _ _ _ F I). split; [reflexivity | exact I].
Qed.
Lemma aacc_none v l : fold_left (aacc v) l None = None.
Proof. induction l; cbn [fold_left aacc]; auto. Qed.
Lemma aacc_ok v vi l st Q Qn : inI v vi -> okI st Q -> fold_left (aacc vi) l (Some Q) = Some Qn ->
  fold_left (acc go_wrap v) l st = fold_left (acc id_wrap v) l st /\ okI (fold_left (acc id_wrap v) l st) Qn.
Proof.
  intros V. revert st Q. induction l as [|[[sub y] m] l IH]; intros st Q O H; cbn [fold_left] in *.
  - injection H as <-. auto.
  - cbn [aacc] in H. destruct (ck W64 (mulI vi (kI m))) as [p|] eqn:P; [|rewrite aacc_none in H; discriminate].
    apply ck_some in P. destruct P as [-> P]. pose proof (mulI_ok _ _ _ _ V (kI_ok m)) as PM. pose proof (get_ok _ _ y O) as G.
    destruct (ck W64 _) as [i|] eqn:QQ in H; [|rewrite aacc_none in H; discriminate]. apply ck_some in QQ. destruct QQ as [-> QQ].
    assert (E : acc go_wrap v st (sub, y, m) = acc id_wrap v st (sub, y, m) /\ okI (acc id_wrap v st (sub, y, m)) (puti Q y (if sub then subI (geti Q y) (mulI vi (kI m)) else addI (geti Q y) (mulI vi (kI m))))).
    { cbn [acc]. rewrite (fits_wrap _ _ _ P PM). destruct sub.
      - pose proof (subI_ok _ _ _ _ G PM) as I. rewrite (fits_wrap _ _ _ QQ I). split; [reflexivity | apply put_ok; assumption].
      - pose proof (addI_ok _ _ _ _ G PM) as I. rewrite (fits_wrap _ _ _ QQ I). split; [reflexivity | apply put_ok; assumption]. }
    destruct E as [E1 E2]. rewrite E1. apply (IH _ _ E2 H).
Qed.
Lemma get_put_ne st r r' v : r <> r' -> get (put st r v) r' = get st r'.
Proof. revert r r'. unfold get. induction st; intros [|r] [|r'] H; cbn [put nth]; auto; congruence. Qed.
Lemma get_put_eq st r v : (r < length st)%nat -> get (put st r v) r = v.
Proof. revert r. unfold get. induction st; intros [|r] H; cbn [put nth length] in *; auto; try lia. apply IHst. lia. Qed.
Lemma put_length st r v : length (put st r v) = length st.
Proof. revert r. induction st; intros [|r]; cbn [put length]; auto. Qed.

Lemma shiftl_mul c k : 0 <= k -> Z.shiftl c k = c * 2 ^ k.
Proof. intros. apply Z.shiftl_mul_pow2. assumption. Qed.
Lemma carry_rem v h k : 0 < k -> - h <= v - Z.shiftr (v + h) k * 2 ^ k <= 2 ^ k - 1 - h.
Proof.
  intros K. rewrite Z.shiftr_div_pow2 by lia. assert (0 < 2 ^ k) by (apply Z.pow_pos_nonneg; lia).
  pose proof (Z.div_mod (v + h) (2 ^ k)) as D. pose proof (Z.mod_pos_bound (v + h) (2 ^ k)) as M. specialize (D ltac:(lia)). specialize (M ltac:(lia)). lia.
Qed.

Theorem astep_ok st Q i Qn : okI st Q -> astep Q i = Some Qn -> step go_wrap st i = step id_wrap st i /\ okI (step id_wrap st i) Qn.
Proof.
  intros O H. destruct i as [r e | t rnd x y k m | t x k | x l]; cbn [astep step] in *.
  - destruct (aev Q e) as [v|] eqn:E; [|discriminate]. injection H as <-. destruct (aev_ok _ _ _ _ O E) as [E1 E2]. rewrite E1. split; [reflexivity | apply put_ok; assumption].
  - destruct (Nat.eqb_spec x y) as [XY | XY]; [discriminate|]. destruct (Z.leb_spec k 0) as [K | K]; [discriminate|]. cbn [orb] in H.
    set (h := if rnd then 2 ^ (k - 1) else 0) in *.
    destruct (ck t _) as [xr|] eqn:C1 in H; [|discriminate]. apply ck_some in C1. destruct C1 as [-> C1].
    destruct (ck t (mulI _ (kI m))) as [cm|] eqn:C2 in H; [|discriminate]. apply ck_some in C2. destruct C2 as [-> C2].
    destruct (ck t (mulI _ (kI (2 ^ k)))) as [ck'|] eqn:C3 in H; [|discriminate]. apply ck_some in C3. destruct C3 as [_ C3].
    destruct (ck t (- h, _)) as [nx|] eqn:C4 in H; [|discriminate]. apply ck_some in C4. destruct C4 as [-> C4].
    destruct (ck t (addI (geti Q y) _)) as [ny|] eqn:C5 in H; [|discriminate]. apply ck_some in C5. destruct C5 as [-> C5]. injection H as <-.
    pose proof (get_ok _ _ x O) as GX. pose proof (get_ok _ _ y O) as GY. pose proof (addI_ok _ _ _ _ GX (kI_ok h)) as XR.
    assert (RX : (if rnd then go_wrap t (get st x + 2 ^ (k - 1)) else get st x) = get st x + h).
    { unfold h in *. destruct rnd; [apply (fits_wrap _ _ _ C1 XR) | lia]. }
    assert (RI : (if rnd then id_wrap t (get st x + 2 ^ (k - 1)) else get st x) = get st x + h) by (unfold h, id_wrap; destruct rnd; lia).
    rewrite RX, RI. set (c := Z.shiftr (get st x + h) k). assert (CI : inI c (shrI (addI (geti Q x) (kI h)) k)) by (apply shrI_ok; [lia | exact XR]).
    pose proof (mulI_ok _ _ _ _ CI (kI_ok m)) as CM. pose proof (mulI_ok _ _ _ _ CI (kI_ok (2 ^ k))) as CK. pose proof (addI_ok _ _ _ _ GY CM) as NY.
    rewrite (fits_wrap _ _ _ C2 CM), (fits_wrap _ _ _ C5 NY). rewrite shiftl_mul by lia. rewrite (fits_wrap _ _ _ C3 CK).
    rewrite !get_put_ne by congruence. change (id_wrap t (c * m)) with (c * m). change (id_wrap t (get st y + c * m)) with (get st y + c * m).
    change (id_wrap t (get st x - id_wrap t (c * 2 ^ k))) with (get st x - c * 2 ^ k).
    assert (NX : inI (get st x - c * 2 ^ k) (- h, 2 ^ k - 1 - h)) by (unfold inI; cbn [fst snd]; apply carry_rem; assumption).
    rewrite (fits_wrap _ _ _ C4 NX). split; [reflexivity |]. apply put_ok; [|exact NX]. apply put_ok; [exact O | exact NY].
  - destruct (Z.leb_spec k 0) as [K | K]; [discriminate|].
    destruct (ck t (mulI _ _)) as [ck'|] eqn:C3 in H; [|discriminate]. apply ck_some in C3. destruct C3 as [_ C3].
    destruct (ck t (0, _)) as [nx|] eqn:C4 in H; [|discriminate]. apply ck_some in C4. destruct C4 as [-> C4]. injection H as <-.
    pose proof (get_ok _ _ x O) as GX. pose proof (mulI_ok _ _ _ _ (shrI_ok _ _ k ltac:(lia) GX) (kI_ok (2 ^ k))) as CK.
    rewrite shiftl_mul by lia. rewrite (fits_wrap _ _ _ C3 CK). change (id_wrap t (Z.shiftr (get st x) k * 2 ^ k)) with (Z.shiftr (get st x) k * 2 ^ k).
    assert (NX : inI (get st x - Z.shiftr (get st x) k * 2 ^ k) (0, 2 ^ k - 1)). { unfold inI; cbn [fst snd]. pose proof (carry_rem (get st x) 0 k K) as R. rewrite !Z.add_0_r in R. lia. }
    rewrite (fits_wrap _ _ _ C4 NX). split; [reflexivity | apply put_ok; assumption].
  - destruct (fold_left (aacc (geti Q x)) l (Some Q)) as [Qm|] eqn:E; [|discriminate]. injection H as <-.
    destruct (aacc_ok _ _ _ _ _ _ (get_ok _ _ x O) O E) as [E1 E2]. rewrite E1. split; [reflexivity | apply put_ok; [exact E2 |]]. unfold inI; cbn; lia.
Qed.
Theorem arun_ok p st Q Qn : okI st Q -> arun p Q = Some Qn -> run go_wrap p st = run id_wrap p st /\ okI (run id_wrap p st) Qn.
Proof.
  revert st Q. unfold run. induction p as [|i p IH]; intros st Q O H; cbn [arun fold_left] in *.
  - injection H as <-. auto.
  - destruct (astep Q i) as [Qm|] eqn:E; [|discriminate]. destruct (astep_ok _ _ _ _ O E) as [E1 E2]. rewrite E1. apply (IH _ _ E2 H).
Qed.
(** Wrap-around arithmetic and exact arithmetic agree after every instruction. *)
Definition no_overflow (p : list instr) (st : list Z) : Prop := forall k, run go_wrap (firstn k p) st = run id_wrap (firstn k p) st.
Theorem arun_no_overflow p st Q Qn : okI st Q -> arun p Q = Some Qn -> no_overflow p st.
Proof.
  intros O H k. revert k st Q O H. unfold run. induction p as [|i p IH]; intros [|k] st Q O H; cbn [arun fold_left firstn] in *; try reflexivity.
  destruct (astep Q i) as [Qm|] eqn:E; [|discriminate]. destruct (astep_ok _ _ _ _ O E) as [E1 E2]. rewrite E1. apply (IH k _ _ E2 H).
Qed.

(** ** Weighted sums *)
Fixpoint dot (ws st : list Z) : Z := match ws, st with w :: ws', v :: st' => w * v + dot ws' st' | _, _ => 0 end.
Lemma dot_put ws st r v : (r < length st)%nat -> dot ws (put st r v) = dot ws st + nth r ws 0 * (v - get st r).
Proof.
  revert ws r. unfold get. induction st as [|a st IH]; intros [|w ws] [|r] H; cbn [put dot nth length] in *; try lia.
  rewrite IH by lia. lia.
Qed.
(** A multiple of [m]; [m = 0] asks for equality. *)
Definition divb (m d : Z) : bool := if m =? 0 then d =? 0 else d mod m =? 0.
Lemma divb_ok m d : divb m d = true -> (m | d).
Proof.
  unfold divb. destruct (Z.eqb_spec m 0) as [-> | M]; intros H; apply Z.eqb_eq in H; [subst; apply Z.divide_0_r |]. apply Z.mod_divide; assumption.
Qed.
Fixpoint fold_weight (ws : list Z) (l : list (bool * nat * Z)) : Z :=
  match l with [] => 0 | (sub, y, m) :: r => (if sub then - (nth y ws 0 * m) else nth y ws 0 * m) + fold_weight ws r end.
Definition targets_ok (n x : nat) (l : list (bool * nat * Z)) : bool := forallb (fun f => let y := snd (fst f) in (y <? n)%nat && negb (y =? x)%nat) l.
Definition pres (n : nat) (ws : list Z) (m : Z) (i : instr) : bool :=
  match i with
  | ICarry _ _ x y k mm => (x <? n)%nat && (y <? n)%nat && negb (x =? y)%nat && (0 <? k) && divb m (nth y ws 0 * mm - 2 ^ k * nth x ws 0)
  | IFold x l => (x <? n)%nat && targets_ok n x l && divb m (fold_weight ws l - nth x ws 0)
  | ITop _ x k => (x <? n)%nat && (0 <? k) && divb m (2 ^ k * nth x ws 0)
  | _ => false
  end.
Lemma acc_get_ne v x l st n : targets_ok n x l = true -> get (fold_left (acc id_wrap v) l st) x = get st x.
Proof.
  revert st. induction l as [|[[sub y] m] l IH]; intros st T; cbn [fold_left targets_ok forallb fst snd] in *; [reflexivity |].
  apply andb_true_iff in T. destruct T as [T1 T2]. apply andb_true_iff in T1. destruct T1 as [_ T1]. apply negb_true_iff, Nat.eqb_neq in T1.
  rewrite IH by assumption. unfold acc. rewrite get_put_ne by assumption. reflexivity.
Qed.
Lemma acc_length w v l st : length (fold_left (acc w v) l st) = length st.
Proof. revert st. induction l as [|[[sub y] m] l IH]; intros st; cbn [fold_left]; [reflexivity |]. rewrite IH. cbn [acc]. apply put_length. Qed.
Lemma acc_dot ws v x l st : targets_ok (length st) x l = true -> dot ws (fold_left (acc id_wrap v) l st) = dot ws st + v * fold_weight ws l.
Proof.
  revert st. induction l as [|[[sub y] m] l IH]; intros st T; cbn [fold_left fold_weight]; [lia |].
  cbn [targets_ok forallb fst snd] in T. apply andb_true_iff in T. destruct T as [T1 T2]. apply andb_true_iff in T1. destruct T1 as [T1 _]. apply Nat.ltb_lt in T1.
  rewrite IH by (cbn [acc]; rewrite put_length; assumption). cbn [acc]. rewrite dot_put by assumption. unfold id_wrap. destruct sub; ring.
Qed.
Lemma step_length w st i : length (step w st i) = length st.
Proof. destruct i; cbn [step]; rewrite ?put_length, ?acc_length; reflexivity. Qed.
Lemma run_length w p st : length (run w p st) = length st.
Proof. revert st. unfold run. induction p as [|i p IH]; intros st; cbn [fold_left]; [reflexivity |]. rewrite IH. apply step_length. Qed.
Lemma pres_ok ws m st i : pres (length st) ws m i = true -> (m | dot ws (step id_wrap st i) - dot ws st).
Proof.
  destruct i as [r e | t rnd x y k mm | t x k | x l]; cbn [pres step]; try discriminate; intros H.
  - repeat (apply andb_true_iff in H; destruct H as [H ?]). apply Nat.ltb_lt in H, H3. apply negb_true_iff, Nat.eqb_neq in H2. apply Z.ltb_lt in H1. apply divb_ok in H0.
    unfold id_wrap. rewrite dot_put by (rewrite put_length; assumption). rewrite dot_put by assumption. rewrite shiftl_mul by lia. rewrite get_put_ne by congruence.
    set (c := Z.shiftr _ k). replace (_ - dot ws st) with ((nth y ws 0 * mm - 2 ^ k * nth x ws 0) * c) by ring. apply Z.divide_mul_l. assumption.
  - repeat (apply andb_true_iff in H; destruct H as [H ?]). apply Nat.ltb_lt in H. apply Z.ltb_lt in H1. apply divb_ok in H0.
    unfold id_wrap. rewrite dot_put by assumption. rewrite shiftl_mul by lia. set (c := Z.shiftr _ k). replace (_ - dot ws st) with ((2 ^ k * nth x ws 0) * - c) by ring. apply Z.divide_mul_l. assumption.
  - repeat (apply andb_true_iff in H; destruct H as [H ?]). apply Nat.ltb_lt in H. apply divb_ok in H0.
    rewrite dot_put by (rewrite acc_length; assumption). rewrite (acc_dot ws _ x) by assumption. rewrite (acc_get_ne _ _ _ _ (length st)) by assumption.
    replace (_ - dot ws st) with ((fold_weight ws l - nth x ws 0) * get st x) by ring. apply Z.divide_mul_l. assumption.
Qed.
Theorem run_pres ws m p st : forallb (pres (length st) ws m) p = true -> (m | dot ws (run id_wrap p st) - dot ws st).
Proof.
  revert st. unfold run. induction p as [|i p IH]; intros st H; cbn [fold_left forallb] in *; [rewrite Z.sub_diag; apply Z.divide_0_r |].
  apply andb_true_iff in H. destruct H as [H1 H2]. specialize (IH (step id_wrap st i)). rewrite step_length in IH. specialize (IH H2). pose proof (pres_ok _ _ _ _ H1).
  replace (_ - dot ws st) with ((dot ws (fold_left (step id_wrap) p (step id_wrap st i)) - dot ws (step id_wrap st i)) + (dot ws (step id_wrap st i) - dot ws st)) by ring. apply Z.divide_add_r; assumption.
Qed.
Lemma run_exact ws p st : forallb (pres (length st) ws 0) p = true -> dot ws (run id_wrap p st) = dot ws st.
Proof. intros H. pose proof (run_pres _ _ _ _ H) as D. apply Z.divide_0_l in D. lia. Qed.

(** Bounds on a weighted sum with non-negative weights *)
Fixpoint dotI (ws : list Z) (Q : list itv) : itv := match ws, Q with w :: ws', i :: Qn => addI (w * fst i, w * snd i) (dotI ws' Qn) | _, _ => (0, 0) end.
Lemma dot_ok ws st Q : forallb (Z.leb 0) ws = true -> okI st Q -> inI (dot ws st) (dotI ws Q).
Proof.
  intros W O. revert ws W. induction O as [|v i st Q V O IH]; intros [|w ws] W; cbn [dot dotI forallb] in *; try (unfold inI; cbn; lia).
  apply andb_true_iff in W. destruct W as [W1 W2]. apply Z.leb_le in W1. apply addI_ok; [|apply IH; assumption].
  unfold inI in *; cbn [fst snd]. split; apply Z.mul_le_mono_nonneg_l; lia.
Qed.
Lemma okI_weaken st Q Qn : okI st Q -> forallb (fun '(a, b) => (fst b <=? fst a) && (snd a <=? snd b)) (combine Q Qn) = true -> length Q = length Qn -> okI st Qn.
Proof.
  intros O. revert Qn. induction O as [|v i st Q V O IH]; intros [|j Qn] H L; cbn [length combine forallb] in *; try discriminate; constructor.
  - apply andb_true_iff in H. destruct H as [H _]. apply andb_true_iff in H. destruct H as [H1 H2]. apply Z.leb_le in H1, H2. unfold inI in *. lia.
  - apply andb_true_iff in H. destruct H as [_ H]. apply IH; auto.
Qed.
Lemma okI_length st Q : okI st Q -> length st = length Q.
Proof. intros H. induction H; cbn [length]; congruence. Qed.
