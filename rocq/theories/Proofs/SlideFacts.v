(** The sliding-window recoding and double scalar multiplication. *)
From Verif.Model Require Import Base Limb EdwardsTable EdwardsCode Edwards.
From Verif.Spec Require Import EdSpec.
From Verif.Proofs Require Import Util LimbFacts RadixFacts FieldFacts CurveFacts GroupFacts FieldEl FieldBytes PointFacts TableFacts ScalarMult.
Open Scope Z_scope.

(** ** Binary digits *)
Fixpoint val2 (l : list Z) : Z := match l with [] => 0 | x :: r => x + 2 * val2 r end.
Fixpoint bitsn (n : nat) (U : Z) : list Z := match n with O => [] | S k => U mod 2 :: bitsn k (U / 2) end.
Lemma bitsn_length n U : length (bitsn n U) = n. Proof. revert U. induction n as [|n IH]; intros U; [reflexivity |]. cbn. rewrite IH. reflexivity. Qed.
Lemma bitsn_bit n : forall U, Forall (fun x => x = 0 \/ x = 1) (bitsn n U).
Proof. induction n as [|n IH]; intros U; constructor; [|apply IH]. pose proof (Z.mod_pos_bound U 2 ltac:(lia)). lia. Qed.
Lemma bitsn_mod n : forall U, bitsn n (U mod 2 ^ Z.of_nat n) = bitsn n U.
Proof.
  induction n as [|n IH]; intros U; [reflexivity |]. cbn [bitsn]. rewrite Nat2Z.inj_succ, Z.pow_succ_r by lia. assert (P : 0 < 2 ^ Z.of_nat n) by (apply Z.pow_pos_nonneg; lia). f_equal.
  - apply mod_mul_mod; lia.
  - rewrite Z.rem_mul_r by lia. rewrite (Z.mul_comm 2), Z.div_add by lia. rewrite (Z.div_small (U mod 2)) by (apply Z.mod_pos_bound; lia). rewrite Z.add_0_l. apply IH.
Qed.
Fixpoint incr (l : list Z) : list Z := match l with [] => [] | x :: r => if x =? 0 then 1 :: r else 0 :: incr r end.
Lemma incr_length l : length (incr l) = length l. Proof. induction l as [|x l IH]; [reflexivity |]. cbn. destruct (x =? 0); cbn; congruence. Qed.
Lemma incr_bit l : Forall (fun x => x = 0 \/ x = 1) l -> Forall (fun x => x = 0 \/ x = 1) (incr l).
Proof. induction 1 as [|x l H F IH]; [constructor |]. cbn. destruct (x =? 0); constructor; auto. Qed.
Lemma incr_bitsn n : forall U, incr (bitsn n U) = bitsn n (U + 1).
Proof.
  induction n as [|n IH]; intros U; [reflexivity |]. cbn [bitsn incr]. pose proof (Z.div_mod U 2 ltac:(lia)) as D. pose proof (Z.mod_pos_bound U 2 ltac:(lia)) as B. destruct (Z.eqb_spec (U mod 2) 0) as [E | E].
  - rewrite <- (Z.mod_unique_pos (U + 1) 2 (U / 2) 1) by lia. rewrite <- (Z.div_unique_pos (U + 1) 2 (U / 2) 1) by lia. reflexivity.
  - rewrite IH. rewrite <- (Z.mod_unique_pos (U + 1) 2 (U / 2 + 1) 0) by lia. rewrite <- (Z.div_unique_pos (U + 1) 2 (U / 2 + 1) 0) by lia. reflexivity.
Qed.
Lemma get_app p l k : get (p ++ l) (length p + k) = get l k.
Proof. unfold get. rewrite app_nth2_plus. reflexivity. Qed.
Lemma put_app p l k v : put (p ++ l) (length p + k) v = p ++ put l k v.
Proof. induction p as [|x p IH]; [reflexivity |]. cbn [app length Nat.add put]. rewrite IH. reflexivity. Qed.
Lemma put_length l k v : length (put l k v) = length l.
Proof. revert k. induction l as [|x l IH]; intros [|k]; cbn; try reflexivity. rewrite IH. reflexivity. Qed.
Lemma carry_shift p n : forall k l, slide_carry n (length p + k) (p ++ l) = p ++ slide_carry n k l.
Proof.
  induction n as [|n IH]; intros k l; [reflexivity |]. cbn [slide_carry]. rewrite get_app. destruct (get l k =? 0); rewrite put_app; [reflexivity |]. rewrite <- plus_Sn_m, plus_n_Sm || idtac. replace (S (length p + k)) with (length p + S k)%nat by lia. apply IH.
Qed.
Lemma carry_incr l : forall p, slide_carry (length l) (length p) (p ++ l) = p ++ incr l.
Proof.
  induction l as [|x l IH]; intros p; [reflexivity |]. cbn [length slide_carry incr]. replace (length p) with (length p + 0)%nat by lia. rewrite get_app, !put_app. unfold get. cbn [nth put]. destruct (x =? 0); [reflexivity |].
  specialize (IH (p ++ [0])). rewrite app_length, <- !app_assoc in IH. cbn [length app] in IH. replace (S (length p + 0)) with (length p + 1)%nat by lia. exact IH.
Qed.
Lemma carry_length n : forall k l, length (slide_carry n k l) = length l.
Proof. induction n as [|n IH]; intros k l; [reflexivity |]. cbn [slide_carry]. destruct (get l k =? 0); [apply put_length |]. rewrite IH. apply put_length. Qed.

(** ** One digit *)
Fixpoint inner0 (n b : nat) (l : list Z) : list Z :=
  match n with
  | O => l
  | S n' =>
      if (b <? length l)%nat then
        if negb (get l b =? 0) then
          if i8 (get l 0 + i8 (Z.shiftl (get l b) (Z.of_nat b))) <=? 15 then inner0 n' (S b) (put (put l 0 (i8 (get l 0 + i8 (Z.shiftl (get l b) (Z.of_nat b))))) b 0)
          else if i8 (get l 0 - i8 (Z.shiftl (get l b) (Z.of_nat b))) >=? -15 then inner0 n' (S b) (slide_carry (length l - b) b (put l 0 (i8 (get l 0 - i8 (Z.shiftl (get l b) (Z.of_nat b))))))
          else l
        else inner0 n' (S b) l
      else l
  end.
Lemma inner0_S n' b l : inner0 (S n') b l =
      if (b <? length l)%nat then
        if negb (get l b =? 0) then
          if i8 (get l 0 + i8 (Z.shiftl (get l b) (Z.of_nat b))) <=? 15 then inner0 n' (S b) (put (put l 0 (i8 (get l 0 + i8 (Z.shiftl (get l b) (Z.of_nat b))))) b 0)
          else if i8 (get l 0 - i8 (Z.shiftl (get l b) (Z.of_nat b))) >=? -15 then inner0 n' (S b) (slide_carry (length l - b) b (put l 0 (i8 (get l 0 - i8 (Z.shiftl (get l b) (Z.of_nat b))))))
          else l
        else inner0 n' (S b) l
      else l.
Proof. reflexivity. Qed.
Lemma inner_shift p n : forall b l, (length p + length l = 256)%nat -> slide_inner n b (length p) (p ++ l) = p ++ inner0 n b l.
Proof.
  induction n as [|n IH]; intros b l L; [reflexivity |]. cbn [slide_inner inner0]. cbv zeta. replace (length p + b <? 256)%nat with (b <? length l)%nat by (destruct (Nat.ltb_spec b (length l)), (Nat.ltb_spec (length p + b) 256); lia || reflexivity).
  destruct (Nat.ltb_spec b (length l)) as [B | B]; [|reflexivity]. rewrite get_app. pose proof (get_app p l 0) as G0. rewrite Nat.add_0_r in G0. rewrite !G0. pose proof (fun v => put_app p l 0 v) as P0. rewrite Nat.add_0_r in P0. rewrite !P0, put_app.
  destruct (negb (get l b =? 0)); [|apply IH; exact L]. set (t := i8 (Z.shiftl (get l b) (Z.of_nat b))).
  destruct (i8 (get l 0 + t) <=? 15); [apply IH; rewrite !put_length; exact L |]. destruct (i8 (get l 0 - t) >=? -15); [|reflexivity].
  rewrite carry_shift. replace (256 - (length p + b))%nat with (length l - b)%nat by lia. apply IH. rewrite carry_length, put_length. exact L.
Qed.
Definition bit (x : Z) : Prop := x = 0 \/ x = 1.
Lemma inner_123 x1 x2 x3 l : bit x1 -> bit x2 -> bit x3 -> inner0 6 1 (1 :: x1 :: x2 :: x3 :: l) = inner0 3 4 ((1 + 2 * x1 + 4 * x2 + 8 * x3) :: 0 :: 0 :: 0 :: l).
Proof. intros [-> | ->] [-> | ->] [-> | ->]; reflexivity. Qed.
Lemma inner_56 w t : -15 <= w <= 15 -> Forall bit t -> inner0 2 5 (w :: 0 :: 0 :: 0 :: 0 :: t) = w :: 0 :: 0 :: 0 :: 0 :: t.
Proof.
  intros W F. assert (A5 : i8 (w + i8 (Z.shiftl 1 (Z.of_nat 5))) = w + 32) by (change (i8 (Z.shiftl 1 (Z.of_nat 5))) with 32; apply i8_small; lia).
  assert (S5 : i8 (w - i8 (Z.shiftl 1 (Z.of_nat 5))) = w - 32) by (change (i8 (Z.shiftl 1 (Z.of_nat 5))) with 32; apply i8_small; lia).
  assert (A6 : i8 (w + i8 (Z.shiftl 1 (Z.of_nat 6))) = w + 64) by (change (i8 (Z.shiftl 1 (Z.of_nat 6))) with 64; apply i8_small; lia).
  assert (S6 : i8 (w - i8 (Z.shiftl 1 (Z.of_nat 6))) = w - 64) by (change (i8 (Z.shiftl 1 (Z.of_nat 6))) with 64; apply i8_small; lia).
  assert (L5 : (w + 32 <=? 15) = false) by (apply Z.leb_gt; lia). assert (L6 : (w + 64 <=? 15) = false) by (apply Z.leb_gt; lia).
  assert (G5 : (w - 32 >=? -15) = false) by (rewrite Z.geb_leb; apply Z.leb_gt; lia). assert (G6 : (w - 64 >=? -15) = false) by (rewrite Z.geb_leb; apply Z.leb_gt; lia).
  destruct F as [|x5 t [-> | ->] F]; [reflexivity | |].
  - destruct F as [|x6 t [-> | ->] F]; [reflexivity | reflexivity |]. cbn [inner0 length Nat.ltb Nat.leb]. unfold get. cbn [nth]. cbn [Z.eqb negb]. rewrite A6, S6, L6, G6. reflexivity.
  - cbn [inner0 length Nat.ltb Nat.leb]. unfold get. cbn [nth]. cbn [Z.eqb negb]. rewrite A5, S5, L5, G5. reflexivity.
Qed.
Lemma inner_4 v x4 t : 1 <= v <= 15 -> bit x4 -> Forall bit t ->
  inner0 3 4 (v :: 0 :: 0 :: 0 :: x4 :: t) = if x4 =? 0 then v :: 0 :: 0 :: 0 :: 0 :: t else (v - 16) :: 0 :: 0 :: 0 :: 0 :: incr t.
Proof.
  intros V [-> | ->] F; cbn [Z.eqb].
  - change (inner0 3 4 (v :: 0 :: 0 :: 0 :: 0 :: t)) with (inner0 2 5 (v :: 0 :: 0 :: 0 :: 0 :: t)). apply inner_56; [lia | exact F].
  - rewrite <- (inner_56 (v - 16) (incr t)) by (lia || (apply incr_bit; exact F)).
    assert (A : i8 (v + i8 (Z.shiftl 1 (Z.of_nat 4))) = v + 16) by (change (i8 (Z.shiftl 1 (Z.of_nat 4))) with 16; apply i8_small; lia).
    assert (S' : i8 (v - i8 (Z.shiftl 1 (Z.of_nat 4))) = v - 16) by (change (i8 (Z.shiftl 1 (Z.of_nat 4))) with 16; apply i8_small; lia).
    assert (L : (v + 16 <=? 15) = false) by (apply Z.leb_gt; lia). assert (G : (v - 16 >=? -15) = true) by (rewrite Z.geb_leb; apply Z.leb_le; lia).
    rewrite (inner0_S 2). cbn [length Nat.ltb Nat.leb]. unfold get. cbn [nth]. cbn [Z.eqb negb]. rewrite A, S', L, G. cbn [put]. f_equal.
    change (S (S (S (S (S (length t))))) - 4)%nat with (S (length t)).
    change (slide_carry (S (length t)) 4 (v - 16 :: 0 :: 0 :: 0 :: 1 :: t)) with (slide_carry (length t) 5 ([v - 16; 0; 0; 0; 0] ++ t)). exact (carry_incr t [v - 16; 0; 0; 0; 0]).
Qed.
(** The digit for an odd suffix U of n bits, and the digits of a number *)
Definition digit (U : Z) : Z := let m := U mod 32 in if U mod 2 =? 0 then 0 else if m <? 16 then m else m - 32.
Fixpoint digits (n : nat) (U : Z) : list Z := match n with O => [] | S k => digit U :: digits k (((U - digit U) / 2) mod 2 ^ Z.of_nat k) end.
Definition slide_step (r : list Z) (i : nat) : list Z := if negb (get r i =? 0) then slide_inner 6 1 i r else r.
Lemma odd_small n : (n <= 3)%nat -> forall l, length l = n -> Forall bit l -> inner0 6 1 (1 :: l) = (1 + 2 * val2 l) :: repeat 0 n.
Proof.
  intros N l L F. destruct F as [|x1 l B1 F]; [subst n; reflexivity |]. destruct F as [|x2 l B2 F]; [cbn in L; subst n; destruct B1 as [-> | ->]; reflexivity |].
  destruct F as [|x3 l B3 F]; [cbn in L; subst n; destruct B1 as [-> | ->], B2 as [-> | ->]; reflexivity |]. destruct F; [|cbn in L; lia]. cbn in L. subst n. destruct B1 as [-> | ->], B2 as [-> | ->], B3 as [-> | ->]; reflexivity.
Qed.
Lemma val2_bitsn n : forall U, val2 (bitsn n U) = U mod 2 ^ Z.of_nat n.
Proof.
  induction n as [|n IH]; intros U; [cbn [bitsn val2]; rewrite Z.mod_1_r; reflexivity |]. cbn [bitsn val2]. rewrite IH, Nat2Z.inj_succ, Z.pow_succ_r by lia. rewrite Z.rem_mul_r by (try lia; apply Z.pow_pos_nonneg; lia). reflexivity.
Qed.
Lemma bitsn_0 n : bitsn n 0 = repeat 0 n. Proof. induction n as [|n IH]; [reflexivity |]. cbn [bitsn repeat]. change (0 mod 2) with 0. change (0 / 2) with 0. rewrite IH. reflexivity. Qed.
Lemma slide_one p n U : (length p + S n = 256)%nat -> 0 <= U < 2 ^ Z.of_nat (S n) ->
  slide_step (p ++ bitsn (S n) U) (length p) = p ++ digit U :: bitsn n (((U - digit U) / 2) mod 2 ^ Z.of_nat n).
Proof.
  intros L R. unfold slide_step. pose proof (get_app p (bitsn (S n) U) 0) as G0. rewrite Nat.add_0_r in G0. rewrite G0. cbn [bitsn]. unfold get. cbn [nth]. unfold digit. rewrite bitsn_mod.
  pose proof (Z.mod_pos_bound U 2 ltac:(lia)) as B2. pose proof (Z.div_mod U 2 ltac:(lia)) as D2. destruct (Z.eqb_spec (U mod 2) 0) as [E | E]; cbn [negb].
  - rewrite Z.sub_0_r, E. reflexivity.
  - assert (O : U mod 2 = 1) by lia. rewrite O. rewrite inner_shift by (cbn [length]; rewrite bitsn_length; exact L). f_equal.
    assert (M : U mod 32 = 1 + 2 * ((U / 2) mod 16)). { change 32 with (2 * 16). rewrite Z.rem_mul_r by lia. lia. }
    destruct (Nat.le_gt_cases n 3) as [N | N].
    + rewrite (odd_small n N) by (apply bitsn_length || apply bitsn_bit). rewrite val2_bitsn. assert (Q : 2 ^ Z.of_nat n <= 8) by (change 8 with (2 ^ 3); apply Z.pow_le_mono_r; lia). rewrite Nat2Z.inj_succ, Z.pow_succ_r in R by lia.
      assert (UB : 0 <= U / 2 < 2 ^ Z.of_nat n) by lia. rewrite (Z.mod_small (U / 2)) by exact UB. rewrite (Z.mod_small (U / 2) 16) in M by lia. destruct (Z.ltb_spec (U mod 32) 16); [|lia].
      rewrite M. replace (U - (1 + 2 * (U / 2))) with 0 by lia. change (0 / 2) with 0. rewrite bitsn_0. reflexivity.
    + destruct n as [|[|[|[|n]]]]; try lia. cbn [bitsn]. set (V := U / 2) in *.
      assert (BV : forall W, bit (W mod 2)) by (intros W; pose proof (Z.mod_pos_bound W 2 ltac:(lia)); unfold bit; lia).
      rewrite inner_123 by apply BV. set (t := bitsn n (V / 2 / 2 / 2 / 2)).
      assert (E1 : V mod 16 = V mod 2 + 2 * (V / 2 mod 2) + 4 * (V / 2 / 2 mod 2) + 8 * (V / 2 / 2 / 2 mod 2)).
      { change 16 with (2 * 8). rewrite Z.rem_mul_r by lia. change 8 with (2 * 4) at 1. rewrite Z.rem_mul_r by lia. change 4 with (2 * 2) at 1. rewrite Z.rem_mul_r by lia. lia. }
      pose proof (BV V) as H1. pose proof (BV (V / 2)) as H2. pose proof (BV (V / 2 / 2)) as H3. pose proof (BV (V / 2 / 2 / 2)) as H4. unfold bit in *.
      assert (E5 : V = 16 * (V / 2 / 2 / 2 / 2) + V mod 16). { rewrite !Z.div_div by lia. change (2 * 2 * 2 * 2) with 16. apply Z.div_mod. lia. }
      rewrite inner_4; [|lia | apply BV | apply bitsn_bit]. set (a := V mod 2) in *. set (b := V / 2 mod 2) in *. set (c := V / 2 / 2 mod 2) in *. set (d := V / 2 / 2 / 2 mod 2) in *. subst t. set (T := V / 2 / 2 / 2 / 2) in *.
      assert (BT : forall X, X = 16 * T \/ X = 16 * (T + 1) -> X mod 2 = 0 /\ X / 2 mod 2 = 0 /\ X / 2 / 2 mod 2 = 0 /\ X / 2 / 2 / 2 mod 2 = 0 /\ X / 2 / 2 / 2 / 2 = X / 16).
      { intros X HX. assert (HX' : exists Y, X = 16 * Y) by (destruct HX as [-> | ->]; eexists; reflexivity). destruct HX' as [Y ->].
        replace (16 * Y / 2) with (8 * Y) by (apply (Z.div_unique_pos _ 2 _ 0); lia). replace (8 * Y / 2) with (4 * Y) by (apply (Z.div_unique_pos _ 2 _ 0); lia). replace (4 * Y / 2) with (2 * Y) by (apply (Z.div_unique_pos _ 2 _ 0); lia). replace (2 * Y / 2) with Y by (apply (Z.div_unique_pos _ 2 _ 0); lia).
        replace (16 * Y / 16) with Y by (apply (Z.div_unique_pos _ 16 _ 0); lia).
        repeat split; symmetry; [apply (Z.mod_unique_pos _ 2 (8 * Y) 0) | apply (Z.mod_unique_pos _ 2 (4 * Y) 0) | apply (Z.mod_unique_pos _ 2 (2 * Y) 0) | apply (Z.mod_unique_pos _ 2 Y 0)]; lia. }
      assert (U = 2 * V + 1) by lia.
      destruct (Z.eqb_spec d 0) as [Z4 | Z4].
      * destruct (Z.ltb_spec (U mod 32) 16) as [Q | Q]; [|lia]. f_equal; [lia |]. replace ((U - U mod 32) / 2) with (16 * T) by (apply (Z.div_unique_pos _ 2 _ 0); lia).
        destruct (BT (16 * T) ltac:(lia)) as (-> & -> & -> & -> & ->). replace (16 * T / 16) with T by (apply (Z.div_unique_pos _ 16 _ 0); lia). reflexivity.
      * destruct (Z.ltb_spec (U mod 32) 16) as [Q | Q]; [lia |]. f_equal; [lia |]. replace ((U - (U mod 32 - 32)) / 2) with (16 * (T + 1)) by (apply (Z.div_unique_pos _ 2 _ 0); lia).
        destruct (BT (16 * (T + 1)) ltac:(lia)) as (-> & -> & -> & -> & ->). replace (16 * (T + 1) / 16) with (T + 1) by (apply (Z.div_unique_pos _ 16 _ 0); lia). rewrite incr_bitsn. reflexivity.
Qed.
Lemma slide_all n : forall p U, (length p + n = 256)%nat -> 0 <= U < 2 ^ Z.of_nat n -> fold_left slide_step (seq (length p) n) (p ++ bitsn n U) = p ++ digits n U.
Proof.
  induction n as [|n IH]; intros p U L R; [reflexivity |]. cbn [seq fold_left digits]. rewrite slide_one by (lia || exact R). set (d := digit U). set (U' := ((U - d) / 2) mod 2 ^ Z.of_nat n).
  replace (p ++ d :: bitsn n U') with ((p ++ [d]) ++ bitsn n U') by (rewrite <- app_assoc; reflexivity). replace (S (length p)) with (length (p ++ [d])) by (rewrite app_length; cbn; lia).
  rewrite IH; [rewrite <- app_assoc; reflexivity | rewrite app_length; cbn; lia |]. apply Z.mod_pos_bound. apply Z.pow_pos_nonneg; lia.
Qed.
Lemma bits_nth n : forall U i, (i < n)%nat -> nth i (bitsn n U) 0 = (U / 2 ^ Z.of_nat i) mod 2.
Proof.
  induction n as [|n IH]; intros U [|i] L; try lia; cbn [bitsn nth]; [rewrite Z.div_1_r; reflexivity |]. rewrite IH by lia. rewrite Nat2Z.inj_succ, Z.pow_succ_r, Z.div_div by (try lia; apply Z.pow_pos_nonneg; lia). reflexivity.
Qed.
Lemma slide_bits_spec a : bytes_ok a -> length a = 32%nat -> slide_bits a = bitsn 256 (le_value a).
Proof.
  intros B L. unfold slide_bits. apply (nth_ext _ _ 0 0). { rewrite map_length, seq_length, bitsn_length. reflexivity. } rewrite map_length, seq_length. intros i I.
  rewrite bits_nth by exact I. rewrite (nth_indep _ 0 (i8 (Z.land 1 (Z.shiftr (nth (0 / 8) a 0) (Z.of_nat (0 mod 8)))))) by (rewrite map_length, seq_length; exact I).
  rewrite (map_nth (fun i => i8 (Z.land 1 (Z.shiftr (nth (i / 8) a 0) (Z.of_nat (i mod 8))))) (seq 0 256) 0%nat i). rewrite seq_nth by exact I. rewrite Nat.add_0_l.
  assert (I8 : (i = 8 * (i / 8) + i mod 8)%nat) by (apply Nat.div_mod; lia). assert (M8 : (i mod 8 < 8)%nat) by (apply Nat.mod_upper_bound; lia). assert (Q32 : (i / 8 < 32)%nat) by (apply Nat.div_lt_upper_bound; lia).
  set (q := (i / 8)%nat) in *. set (s := (i mod 8)%nat) in *. clearbody q s. subst i.
  rewrite Z.land_comm. change 1 with (Z.ones 1). rewrite Z.land_ones, Z.shiftr_div_pow2 by lia. change (2 ^ 1) with 2.
  assert (E : nth q a 0 = (le_value a / 256 ^ Z.of_nat q) mod 256).
  { rewrite <- le_value_skipn by exact B. assert (SK : skipn q a = nth q a 0 :: skipn (S q) a).
    { clear - L Q32. assert (H : (q < length a)%nat) by lia. clear L Q32. revert q H. induction a as [|x a IH]; intros [|q] H; cbn [length] in H; try lia; [reflexivity |]. cbn [skipn nth]. rewrite (IH q) by lia. reflexivity. }
    rewrite SK. cbn [le_value]. pose proof (nth_byte a q B). rewrite (Z.mul_comm 256), Z.mod_add, Z.mod_small by lia. reflexivity. }
  rewrite E. replace 256 with (2 ^ 8) by reflexivity. rewrite <- Z.pow_mul_r by lia. rewrite Nat2Z.inj_add, Nat2Z.inj_mul, Z.pow_add_r by lia. change (Z.of_nat 8) with 8.
  rewrite <- Z.div_div by (apply Z.pow_nonzero || apply Z.pow_pos_nonneg; lia). set (W := le_value a / 2 ^ (8 * Z.of_nat q)).
  change (W mod 2 ^ 8 / 2 ^ Z.of_nat s) with (W mod 2 ^ 8 / 2 ^ Z.of_nat s). pose proof (mod_div_mod W (Z.of_nat s) 8 1 ltac:(lia) ltac:(lia) ltac:(lia)) as MD. change (2 ^ 1) with 2 in MD. rewrite MD.
  apply i8_small. pose proof (Z.mod_pos_bound (W / 2 ^ Z.of_nat s) 2 ltac:(lia)). lia.
Qed.
Lemma slide_all0 n U : (n = 256)%nat -> 0 <= U < 2 ^ Z.of_nat n -> fold_left slide_step (seq 0 n) (bitsn n U) = digits n U.
Proof. intros N R. exact (slide_all n [] U N R). Qed.
Theorem slide_spec a : bytes_ok a -> length a = 32%nat -> slide a = digits 256 (le_value a).
Proof.
  intros B L. unfold slide. rewrite slide_bits_spec by assumption. pose proof (le_value_range a B) as R. rewrite L in R.
  assert (R2 : 0 <= le_value a < 2 ^ Z.of_nat 256) by exact R. exact (slide_all0 256 (le_value a) eq_refl R2).
Qed.
Definition digit_ok (d : Z) : Prop := -15 <= d <= 15 /\ (d = 0 \/ d mod 2 = 1).
Lemma digit_digit_ok U : digit_ok (digit U).
Proof.
  unfold digit_ok, digit. pose proof (Z.mod_pos_bound U 32 ltac:(lia)). pose proof (Z.mod_pos_bound U 2 ltac:(lia)). assert (E : (U mod 32) mod 2 = U mod 2) by (change 32 with (2 * 16); apply mod_mul_mod; lia).
  destruct (Z.eqb_spec (U mod 2) 0); [lia |]. destruct (Z.ltb_spec (U mod 32) 16); [lia |]. split; [|right].
  - assert (U mod 32 <> 16) by (intros X; rewrite X in E; cbn in E; lia). lia.
  - rewrite Zminus_mod, E. replace (U mod 2) with 1 by lia. reflexivity.
Qed.
Lemma digits_ok n : forall U, Forall digit_ok (digits n U) /\ length (digits n U) = n.
Proof. induction n as [|n IH]; intros U; [split; [constructor | reflexivity] |]. cbn [digits length]. destruct (IH (((U - digit U) / 2) mod 2 ^ Z.of_nat n)) as [I1 I2]. split; [constructor; [apply digit_digit_ok | exact I1] | rewrite I2; reflexivity]. Qed.
Lemma digit_cong U : exists k, U - digit U = 2 * k /\ (digit U = 0 \/ exists j, U - digit U = 32 * j).
Proof.
  unfold digit. pose proof (Z.div_mod U 2 ltac:(lia)). pose proof (Z.div_mod U 32 ltac:(lia)). destruct (Z.eqb_spec (U mod 2) 0) as [E | E]; [exists (U / 2); split; [lia | left; reflexivity] |].
  destruct (Z.ltb_spec (U mod 32) 16).
  - exists (16 * (U / 32)). split; [lia | right; exists (U / 32); lia].
  - exists (16 * (U / 32 + 1)). split; [lia | right; exists (U / 32 + 1); lia].
Qed.
(** The digits have the right value modulo 2^n, and exactly the right value for numbers up to 2^(n-1). *)
Lemma digits_mod n : forall U, exists k, val2 (digits n U) = U + k * 2 ^ Z.of_nat n.
Proof.
  induction n as [|n IH]; intros U; cbn [digits val2]; [exists (- U); change (2 ^ Z.of_nat 0) with 1; lia |]. destruct (digit_cong U) as (h & E & _). set (d := digit U) in *.
  assert (E2 : (U - d) / 2 = h) by (symmetry; apply (Z.div_unique_pos _ 2 _ 0); lia). rewrite E2. destruct (IH (h mod 2 ^ Z.of_nat n)) as [k K]. rewrite K. rewrite Nat2Z.inj_succ, Z.pow_succ_r by lia.
  assert (P : 0 < 2 ^ Z.of_nat n) by (apply Z.pow_pos_nonneg; lia). pose proof (Z.div_mod h (2 ^ Z.of_nat n) ltac:(lia)). exists (k - h / 2 ^ Z.of_nat n). lia.
Qed.
Lemma digits_val n : forall U, 0 <= U <= 2 ^ Z.of_nat n -> val2 (digits (S n) U) = U.
Proof.
  induction n as [|n IH]; intros U R.
  - assert (C : U = 0 \/ U = 1) by (change (2 ^ Z.of_nat 0) with 1 in R; lia). destruct C as [-> | ->]; reflexivity.
  - remember (S n) as m. cbn [digits val2]. destruct (digit_cong U) as (h & E & W). pose proof (digit_digit_ok U) as DO. assert (E2 : (U - digit U) / 2 = h) by (symmetry; apply (Z.div_unique_pos _ 2 _ 0); lia). rewrite E2.
    subst m. rewrite Nat2Z.inj_succ, Z.pow_succ_r in R by lia. rewrite Nat2Z.inj_succ, Z.pow_succ_r by lia. assert (P : 0 < 2 ^ Z.of_nat n) by (apply Z.pow_pos_nonneg; lia).
    assert (HB : 0 <= h <= 2 ^ Z.of_nat n).
    { unfold digit in *. pose proof (Z.mod_pos_bound U 32 ltac:(lia)) as M32. pose proof (Z.div_mod U 32 ltac:(lia)) as D32. destruct (Z.eqb_spec (U mod 2) 0) as [E0 | E0]; [lia |]. destruct (Z.ltb_spec (U mod 32) 16) as [Q | Q].
      - split; [|lia]. pose proof (Z.div_pos U 32 ltac:(lia) ltac:(lia)). lia.
      - split; [lia |]. destruct (Nat.le_gt_cases n 3) as [N | N].
        + assert (2 ^ Z.of_nat n <= 2 ^ 3) by (apply Z.pow_le_mono_r; lia). change (2 ^ 3) with 8 in *. exfalso. assert (U <= 16) by lia. assert (U <> 16) by (intros ->; cbn in E0; lia). rewrite Z.mod_small in Q by lia. lia.
        + replace (Z.of_nat n) with (4 + (Z.of_nat n - 4)) in * by lia. rewrite Z.pow_add_r in * by lia. change (2 ^ 4) with 16 in *. set (A := 2 ^ (Z.of_nat n - 4)) in *. assert (U / 32 <= A) by (apply Z.div_le_upper_bound; lia).
          destruct (Z.eq_dec (U / 32) A); lia. }
    rewrite Z.mod_small by lia. rewrite IH by exact HB. lia.
Qed.
(** A carry out of the top is lost at most once, so the value is the number or 2^n less. *)
Lemma digits_lost n : forall U, 0 <= U < 2 ^ Z.of_nat n -> val2 (digits n U) = U \/ val2 (digits n U) = U - 2 ^ Z.of_nat n.
Proof.
  induction n as [|n IH]; intros U R; [left; change (2 ^ Z.of_nat 0) with 1 in R; cbn; lia |].
  cbn [digits val2]. destruct (digit_cong U) as (h & E & W). pose proof (digit_digit_ok U) as DO. assert (E2 : (U - digit U) / 2 = h) by (symmetry; apply (Z.div_unique_pos _ 2 _ 0); lia). rewrite E2.
  rewrite Nat2Z.inj_succ, Z.pow_succ_r in * by lia. assert (P : 0 < 2 ^ Z.of_nat n) by (apply Z.pow_pos_nonneg; lia).
  assert (HB : 0 <= h <= 2 ^ Z.of_nat n).
  { unfold digit in *. pose proof (Z.mod_pos_bound U 32 ltac:(lia)) as M32. pose proof (Z.div_mod U 32 ltac:(lia)) as D32. destruct (Z.eqb_spec (U mod 2) 0) as [E0 | E0]; [lia |]. destruct (Z.ltb_spec (U mod 32) 16) as [Q | Q].
    - split; [|lia]. pose proof (Z.div_pos U 32 ltac:(lia) ltac:(lia)). lia.
    - split; [lia |]. destruct (Nat.le_gt_cases n 3) as [N | N].
      + assert (2 ^ Z.of_nat n <= 2 ^ 3) by (apply Z.pow_le_mono_r; lia). change (2 ^ 3) with 8 in *. exfalso. rewrite Z.mod_small in Q by lia. lia.
      + replace (Z.of_nat n) with (4 + (Z.of_nat n - 4)) in * by lia. rewrite Z.pow_add_r in * by lia. change (2 ^ 4) with 16 in *. set (A := 2 ^ (Z.of_nat n - 4)) in *. assert (U / 32 < A) by (apply Z.div_lt_upper_bound; lia). lia. }
  destruct (Z.eq_dec h (2 ^ Z.of_nat n)) as [Q | Q].
  - rewrite Q, Z.mod_same by lia. right. destruct (IH 0 ltac:(lia)) as [K | K]; rewrite K; [lia |].
    exfalso. destruct n as [|n]; [change (2 ^ Z.of_nat 0) with 1 in *; cbn in K; lia |].
    rewrite digits_val in K by (split; [lia | apply Z.pow_nonneg; lia]). lia.
  - rewrite Z.mod_small by lia. destruct (IH h ltac:(lia)) as [K | K]; rewrite K; [left | right]; lia.
Qed.
(** It is lost for the odd numbers among the last fifteen. *)
Lemma digits_top n U : (5 <= n)%nat -> 2 ^ Z.of_nat n - 15 <= U < 2 ^ Z.of_nat n -> U mod 2 = 1 -> val2 (digits n U) = U - 2 ^ Z.of_nat n.
Proof.
  intros N R O. assert (PN : 2 ^ Z.of_nat n = 32 * 2 ^ (Z.of_nat n - 5)) by (replace (Z.of_nat n) with (5 + (Z.of_nat n - 5)) at 1 by lia; rewrite Z.pow_add_r by lia; reflexivity).
  assert (P : 0 < 2 ^ (Z.of_nat n - 5)) by (apply Z.pow_pos_nonneg; lia). set (A := 2 ^ (Z.of_nat n - 5)) in *.
  assert (M : U mod 32 = U - 2 ^ Z.of_nat n + 32). { symmetry. apply (Z.mod_unique_pos U 32 (A - 1)); lia. }
  assert (D : digit U = U - 2 ^ Z.of_nat n). { unfold digit. rewrite O, M. cbn [Z.eqb]. destruct (Z.ltb_spec (U - 2 ^ Z.of_nat n + 32) 16); lia. }
  destruct n as [|n]; [lia |]. cbn [digits val2]. rewrite D. replace (U - (U - 2 ^ Z.of_nat (S n))) with (2 ^ Z.of_nat (S n)) by lia.
  rewrite Nat2Z.inj_succ, Z.pow_succ_r by lia. rewrite Z.mul_comm, Z.div_mul by lia. assert (0 < 2 ^ Z.of_nat n) by (apply Z.pow_pos_nonneg; lia). rewrite Z.mod_same by lia.
  destruct n as [|n]; [lia |]. rewrite digits_val by (split; [lia | apply Z.pow_nonneg; lia]). lia.
Qed.
Theorem slide_lost a : bytes_ok a -> length a = 32%nat ->
  (val2 (slide a) = le_value a \/ (2 ^ 255 < le_value a /\ val2 (slide a) = le_value a - 2 ^ 256)) /\
  (2 ^ 256 - 15 <= le_value a -> le_value a mod 2 = 1 -> val2 (slide a) = le_value a - 2 ^ 256).
Proof.
  intros B L. rewrite (slide_spec a B L). pose proof (le_value_range a B) as R. rewrite L in R. split.
  - destruct (Z.le_gt_cases (le_value a) (2 ^ 255)) as [Q | Q].
    + left. apply (digits_val 255). change (2 ^ Z.of_nat 255) with (2 ^ 255). lia.
    + destruct (digits_lost 256 (le_value a) R) as [K | K]; [left; exact K | right; split; [exact Q | exact K]].
  - intros Q O. apply (digits_top 256 (le_value a)); [lia | | exact O]. split; [exact Q | apply R].
Qed.
Theorem slide_value a : bytes_ok a -> length a = 32%nat -> (exists k, val2 (slide a) = le_value a + k * 2 ^ 256) /\ (le_value a <= 2 ^ 255 -> val2 (slide a) = le_value a) /\ Forall digit_ok (slide a) /\ length (slide a) = 256%nat.
Proof.
  intros B L. rewrite (slide_spec a B L). pose proof (le_value_range a B). split; [exact (digits_mod 256 (le_value a)) |]. split; [|exact (digits_ok 256 (le_value a))]. intros R. apply (digits_val 255). change (2 ^ Z.of_nat 255) with (2 ^ 255). lia.
Qed.

(** ** The loop *)
#[local] Opaque zmul.
Lemma val2_app l m : val2 (l ++ m) = val2 l + 2 ^ Z.of_nat (length l) * val2 m.
Proof. induction l as [|x l IH]; cbn [app val2 length]; [change (2 ^ Z.of_nat 0) with 1; lia |]. rewrite IH, Nat2Z.inj_succ, Z.pow_succ_r by lia. ring. Qed.
Lemma firstn_S a i : (i < length a)%nat -> firstn (S i) a = firstn i a ++ [get a i].
Proof. unfold get. revert i. induction a as [|x a IH]; intros [|i] H; cbn [length] in H; try lia; [reflexivity |]. change (firstn (S (S i)) (x :: a)) with (x :: firstn (S i) a). rewrite IH by lia. reflexivity. Qed.
Lemma val2_zeros l : Forall (fun x => x = 0) l -> val2 l = 0. Proof. induction 1 as [|x l -> _ IH]; [reflexivity |]. cbn. rewrite IH. reflexivity. Qed.
Lemma top_index_spec n a b : length a = n -> length b = n -> (top_index n a b <= n)%nat /\ val2 (firstn (top_index n a b) a) = val2 a /\ val2 (firstn (top_index n a b) b) = val2 b.
Proof.
  intros La Lb. assert (H : forall k, (k <= n)%nat -> (top_index k a b <= k)%nat /\ val2 (firstn (top_index k a b) a) = val2 (firstn k a) /\ val2 (firstn (top_index k a b) b) = val2 (firstn k b)).
  { induction k as [|k IH]; intros K; cbn [top_index]; [split; [lia | split; reflexivity] |]. destruct (negb (get a k =? 0) || negb (get b k =? 0)) eqn:E; [split; [lia | split; reflexivity] |].
    apply orb_false_iff in E. destruct E as [Ea Eb]. apply negb_false_iff, Z.eqb_eq in Ea, Eb. destruct (IH ltac:(lia)) as (I1 & I2 & I3). split; [lia |]. rewrite I2, I3, !firstn_S, !val2_app by lia. rewrite Ea, Eb. cbn [val2]. split; lia. }
  destruct (H n ltac:(lia)) as (H1 & H2 & H3). rewrite <- La in H2 at 2. rewrite <- Lb in H3 at 2. rewrite firstn_all in H2, H3. auto.
Qed.
Lemma odd_multiples_spec A A2 n : on_curve A -> repr_ext A2 (zmul 2 A) -> forall c k, repr_cached c (zmul k A) -> forall j, (j <= n)%nat -> repr_cached (nth j (odd_multiples n A2 c) cached0) (zmul (k + 2 * Z.of_nat j) A).
Proof.
  intros C H2. induction n as [|n IH]; intros c k Hc j J.
  - assert (j = 0%nat) by lia. subst j. change (Z.of_nat 0) with 0. rewrite Z.mul_0_r, Z.add_0_r. exact Hc.
  - destruct j as [|j]; cbn [odd_multiples nth]; [change (Z.of_nat 0) with 0; rewrite Z.mul_0_r, Z.add_0_r; exact Hc |].
    replace (k + 2 * Z.of_nat (S j)) with ((2 + k) + 2 * Z.of_nat j) by lia. apply IH; [|lia]. rewrite zmul_add by exact C. apply Ext_ToCached_spec, Comp_ToExtended_spec. apply geAdd_spec; [exact H2 | exact Hc].
Qed.
Lemma odd_index d : digit_ok d -> 0 < d -> (Z.to_nat (Z.quot d 2) <= 7)%nat /\ 1 + 2 * Z.of_nat (Z.to_nat (Z.quot d 2)) = d.
Proof.
  intros [R O] P. rewrite Z.quot_div_nonneg by lia. destruct O as [O | O]; [lia |]. pose proof (Z.div_mod d 2 ltac:(lia)). lia.
Qed.
Lemma odd_opp d : digit_ok d -> digit_ok (- d).
Proof. intros [R O]. split; [lia |]. destruct O as [-> | O]; [left; reflexivity | right]. rewrite <- Z.sub_0_l, Zminus_mod, O. reflexivity. Qed.
Lemma padd4 P Q R T : on_curve P -> on_curve Q -> on_curve R -> on_curve T -> padd (padd P Q) (padd R T) = padd (padd P R) (padd Q T).
Proof.
  intros CP CQ CR CT. rewrite (padd_assoc P Q (padd R T) CP CQ (padd_on _ _ CR CT)). rewrite <- (padd_assoc Q R T CQ CR CT). rewrite (padd_comm Q R). rewrite (padd_assoc R Q T CR CQ CT). rewrite <- (padd_assoc P R (padd Q T) CP CR (padd_on _ _ CQ CT)). exact eq_refl.
Qed.
Definition comb (x : Z) (A : point) (y : Z) : point := padd (zmul x A) (zmul y base_point).
Lemma comb_on x A y : on_curve A -> on_curve (comb x A y).
Proof. intros C. exact (padd_on _ _ (zmul_on x A C) (zmul_on y _ base_on)). Qed.
Lemma comb_add x A y x' y' : on_curve A -> padd (comb x A y) (comb x' A y') = comb (x + x') A (y + y').
Proof.
  intros C. unfold comb. rewrite (padd4 _ _ _ _ (zmul_on x A C) (zmul_on y _ base_on) (zmul_on x' A C) (zmul_on y' _ base_on)). rewrite <- (zmul_add x x' A C), <- (zmul_add y y' _ base_on). exact eq_refl.
Qed.
Lemma comb_A k A : zmul k A = comb k A 0. Proof. unfold comb. rewrite zmul_0, padd_0_r. exact eq_refl. Qed.
Lemma comb_B k A : zmul k base_point = comb 0 A k. Proof. unfold comb. rewrite zmul_0, padd_0_l. exact eq_refl. Qed.
Section Loop.
  Variables (A : point) (Ai : list CachedGroupElement).
  Hypothesis CA : on_curve A.
  Hypothesis HAi : forall j, (j <= 7)%nat -> repr_cached (nth j Ai cached0) (zmul (1 + 2 * Z.of_nat j) A).
  Lemma vartime_step_spec da db r x y : digit_ok da -> digit_ok db -> repr_proj r (comb x A y) -> repr_proj (vartime_step Ai da db r) (comb (2 * x + da) A (2 * y + db)).
  Proof.
    intros DA DB R. unfold vartime_step. cbv zeta. apply Comp_ToProjective_spec. apply Proj_Double_spec in R. rewrite comb_add in R by exact CA. replace (x + x) with (2 * x) in R by lia. replace (y + y) with (2 * y) in R by lia.
    set (t := Proj_Double r) in *. clearbody t. set (X := 2 * x) in *. set (Y := 2 * y) in *. clearbody X Y. clear x y.
    assert (R1 : repr_comp (if da >? 0 then geAdd (Comp_ToExtended t) (nth (Z.to_nat (Z.quot da 2)) Ai cached0) else if da <? 0 then geSub (Comp_ToExtended t) (nth (Z.to_nat (Z.quot (- da) 2)) Ai cached0) else t) (comb (X + da) A Y)).
    { rewrite Z.gtb_ltb. destruct (Z.ltb_spec 0 da) as [P | P].
      - destruct (odd_index da DA P) as [J E]. pose proof (HAi _ J) as H. rewrite E in H. pose proof (geAdd_spec _ _ _ _ (Comp_ToExtended_spec _ _ R) H) as G. rewrite comb_A, comb_add, Z.add_0_r in G by exact CA. exact G.
      - destruct (Z.ltb_spec da 0) as [Q | Q].
        + assert (NP : 0 < - da) by lia. destruct (odd_index (- da) (odd_opp da DA) NP) as [J E]. pose proof (HAi _ J) as H. rewrite E in H. pose proof (geSub_spec _ _ _ _ (Comp_ToExtended_spec _ _ R) H) as G.
          rewrite <- zmul_opp, Z.opp_involutive, comb_A, comb_add, Z.add_0_r in G by exact CA. exact G.
        + replace da with 0 by lia. rewrite Z.add_0_r. exact R. }
    set (t1 := if da >? 0 then _ else _) in *. clearbody t1. clear R.
    rewrite Z.gtb_ltb. destruct (Z.ltb_spec 0 db) as [P | P].
    - destruct (odd_index db DB P) as [J E]. assert (J' : (Z.to_nat (Z.quot db 2) < 8)%nat) by lia. pose proof (bi_table_spec _ J') as H. rewrite Z.add_comm, E in H. pose proof (geMixedAdd_spec _ _ _ _ (Comp_ToExtended_spec _ _ R1) H) as G. rewrite (comb_B _ A), comb_add, Z.add_0_r in G by exact CA. exact G.
    - destruct (Z.ltb_spec db 0) as [Q | Q].
      + assert (NP : 0 < - db) by lia. destruct (odd_index (- db) (odd_opp db DB) NP) as [J E]. assert (J' : (Z.to_nat (Z.quot (- db) 2) < 8)%nat) by lia. pose proof (bi_table_spec _ J') as H. rewrite Z.add_comm, E in H.
        pose proof (geMixedSub_spec _ _ _ _ (Comp_ToExtended_spec _ _ R1) H) as G. rewrite <- zmul_opp, Z.opp_involutive, (comb_B _ A), comb_add, Z.add_0_r in G by exact CA. exact G.
      + replace db with 0 by lia. rewrite Z.add_0_r. exact R1.
  Qed.
  Lemma vartime_loop_spec a b n : Forall digit_ok a -> Forall digit_ok b -> (n <= length a)%nat -> (n <= length b)%nat -> forall r x y, repr_proj r (comb x A y) ->
    repr_proj (vartime_loop n Ai a b r) (comb (val2 (firstn n a) + 2 ^ Z.of_nat n * x) A (val2 (firstn n b) + 2 ^ Z.of_nat n * y)).
  Proof.
    intros Fa Fb. induction n as [|n IH]; intros La Lb r x y R; cbn [vartime_loop].
    - change (firstn 0 a) with (@nil Z). change (firstn 0 b) with (@nil Z). cbn [val2]. change (2 ^ Z.of_nat 0) with 1. rewrite !Z.mul_1_l, !Z.add_0_l. exact R.
    - assert (DA : digit_ok (get a n)) by (rewrite Forall_forall in Fa; apply Fa; apply nth_In; lia). assert (DB : digit_ok (get b n)) by (rewrite Forall_forall in Fb; apply Fb; apply nth_In; lia).
      pose proof (IH ltac:(lia) ltac:(lia) _ _ _ (vartime_step_spec _ _ _ _ _ DA DB R)) as G. rewrite !firstn_S, !val2_app, !firstn_length, !Nat.min_l by lia. cbn [val2]. rewrite Nat2Z.inj_succ, Z.pow_succ_r by lia.
      replace (val2 (firstn n a) + 2 ^ Z.of_nat n * (get a n + 2 * 0) + 2 * 2 ^ Z.of_nat n * x) with (val2 (firstn n a) + 2 ^ Z.of_nat n * (2 * x + get a n)) by ring.
      replace (val2 (firstn n b) + 2 ^ Z.of_nat n * (get b n + 2 * 0) + 2 * 2 ^ Z.of_nat n * y) with (val2 (firstn n b) + 2 ^ Z.of_nat n * (2 * y + get b n)) by ring. exact G.
  Qed.
End Loop.
Theorem DoubleScalarMult_gen a e A b : bytes_ok a -> length a = 32%nat -> bytes_ok b -> length b = 32%nat -> repr_ext e A ->
  repr_proj (GeDoubleScalarMultVartime a e b) (comb (val2 (slide a)) A (val2 (slide b))).
Proof.
  intros Ba La Bb Lb R. assert (CA : on_curve A) by (destruct R as [C _]; exact C). destruct (slide_value a Ba La) as (_ & _ & Fa & Na). destruct (slide_value b Bb Lb) as (_ & _ & Fb & Nb).
  unfold GeDoubleScalarMultVartime. cbv zeta. set (sa := slide a) in *. set (sb := slide b) in *. clearbody sa sb.
  assert (R2 : repr_ext (Comp_ToExtended (Ext_Double e)) (zmul 2 A)). { apply Comp_ToExtended_spec. pose proof (Ext_Double_spec e A R) as D. replace (zmul 2 A) with (padd A A); [exact D |]. rewrite <- (zmul_1 A) at 1 2. rewrite <- zmul_add by exact CA. exact eq_refl. }
  pose proof (Ext_ToCached_spec e A R) as R1. rewrite <- (zmul_1 A) in R1.
  destruct (top_index_spec 256 sa sb Na Nb) as (T1 & T2 & T3). set (n := top_index 256 sa sb) in *. clearbody n.
  assert (Z0 : repr_proj Proj_Zero (comb 0 A 0)) by (unfold comb; rewrite !zmul_0, padd_0_r; exact repr_proj_zero).
  assert (La' : (n <= length sa)%nat) by lia. assert (Lb' : (n <= length sb)%nat) by lia.
  pose proof (vartime_loop_spec A _ CA (fun j J => odd_multiples_spec A _ 7 CA R2 _ 1 R1 j J) sa sb n Fa Fb La' Lb' _ 0 0 Z0) as G. rewrite !Z.mul_0_r, !Z.add_0_r, T2, T3 in G. exact G.
Qed.
Theorem DoubleScalarMult_spec a e A b : bytes_ok a -> length a = 32%nat -> bytes_ok b -> length b = 32%nat -> le_value a <= 2 ^ 255 -> le_value b <= 2 ^ 255 -> repr_ext e A ->
  repr_proj (GeDoubleScalarMultVartime a e b) (padd (zmul (le_value a) A) (zmul (le_value b) base_point)).
Proof.
  intros Ba La Bb Lb Ra Rb R. pose proof (DoubleScalarMult_gen a e A b Ba La Bb Lb R) as G. destruct (slide_value a Ba La) as (_ & Va & _). destruct (slide_value b Bb Lb) as (_ & Vb & _). rewrite Va, Vb in G by assumption. exact G.
Qed.
