(** Model of /repo/crypto/edwards25519/edwards25519.go. Arrays are lists; a function that writes through a pointer
    returns the value written. Line numbers refer to that file. *)
From Verif.Model Require Import Base Limb EdwardsTable EdwardsCode.

Fixpoint map2 {A B C} (f : A -> B -> C) (l : list A) (m : list B) : list C :=
  match l, m with a :: l', b :: m' => f a b :: map2 f l' m' | _, _ => [] end.

(** ** Field elements *)
(** 18-22 *)
Definition FeZero : FieldElement := repeat 0 10.
(** 24-27 *)
Definition FeOne : FieldElement := put FeZero 0 1.
(** 29-40 *)
Definition FeAdd (a b : FieldElement) : FieldElement := map2 (fun x y => i32 (x + y)) a b.
(** 42-53 *)
Definition FeSub (a b : FieldElement) : FieldElement := map2 (fun x y => i32 (x - y)) a b.
(** 63-75 *)
Definition FeCMove (f g : FieldElement) (b : Z) : FieldElement :=
  let b := i32 (- b) in map2 (fun x y => Z.lxor x (Z.land b (Z.lxor x y))) f g.

(** 77-83, 85-92: the slice [in] is the rest of the array from the given offset. *)
Definition load3 (s : bytes) : Z := Z.lor (Z.lor (nth 0 s 0) (Z.shiftl (nth 1 s 0) 8)) (Z.shiftl (nth 2 s 0) 16).
Definition load4 (s : bytes) : Z := Z.lor (Z.lor (Z.lor (nth 0 s 0) (Z.shiftl (nth 1 s 0) 8)) (Z.shiftl (nth 2 s 0) 16)) (Z.shiftl (nth 3 s 0) 24).
Definition load (n : nat) (s : bytes) : Z := if (n =? 3)%nat then load3 s else load4 s.

(** 260-362: FeCombine of int64 values h0..h9 *)
Definition FeCombine (h : list Z) : FieldElement := map i32 (run go_wrap combine_code h).

(** 94-107 *)
Definition FeFromBytes (src : bytes) : FieldElement :=
  FeCombine [ load4 src;
              i64 (Z.shiftl (load3 (skipn 4 src)) 6);
              i64 (Z.shiftl (load3 (skipn 7 src)) 5);
              i64 (Z.shiftl (load3 (skipn 10 src)) 3);
              i64 (Z.shiftl (load3 (skipn 13 src)) 2);
              load4 (skipn 16 src);
              i64 (Z.shiftl (load3 (skipn 20 src)) 7);
              i64 (Z.shiftl (load3 (skipn 23 src)) 5);
              i64 (Z.shiftl (load3 (skipn 26 src)) 4);
              i64 (Z.shiftl (Z.land (load3 (skipn 29 src)) 8388607) 2) ].

(** The stores [byte((x_i >> a) | (x_j << b))] described by [tobytes_stores] and [scalar_stores]. *)
Definition store (t : width) (x : list Z) (s : nat * Z * option (nat * Z)) : Z :=
  let '(i, a, o) := s in
  u8 (match o with
      | None => Z.shiftr (get x i) a
      | Some (j, b) => Z.lor (Z.shiftr (get x i) a) (go_wrap t (Z.shiftl (get x j) b))
      end).

(** 135-145: q, with the shift amounts 26, 25, 26, ... of lines 136-145 *)
Fixpoint q_steps (h : list Z) (k : Z) (q : Z) : Z :=
  match h with [] => q | x :: r => q_steps r (51 - k) (Z.shiftr (i32 (x + q)) k) end.
Definition tobytes_q (h : FieldElement) : Z :=
  q_steps h 26 (Z.shiftr (i32 (i32 (19 * get h 9) + 2 ^ 24)) 25).

(** 132-219: the bytes and the new value of the argument, which is modified *)
Definition FeToBytes (h : FieldElement) : bytes * FieldElement :=
  let q := tobytes_q h in
  let h := put h 0 (i32 (get h 0 + i32 (19 * q))) in
  let h := run go_wrap tobytes_code h in
  (map (store W32 h) tobytes_stores, h).

(** 221-225 *)
Definition FeIsNegative (f : FieldElement) : Z * FieldElement :=
  let (s, f) := FeToBytes f in (Z.land (nth 0 s 0) 1, f).
(** 227-238 *)
Definition FeIsNonZero (f : FieldElement) : Z * FieldElement :=
  let (s, f) := FeToBytes f in
  let x := fold_left Z.lor s 0 in
  let x := Z.lor x (Z.shiftr x 4) in
  let x := Z.lor x (Z.shiftr x 2) in
  let x := Z.lor x (Z.shiftr x 1) in
  (Z.land x 1, f).
(** 247-258 *)
Definition FeNeg (f : FieldElement) : FieldElement := map (fun x => i32 (- x)) f.
(** 376-427 *)
Definition FeMul (f g : FieldElement) : FieldElement :=
  FeCombine (skipn mul_out (run go_wrap mul_code (f ++ g ++ repeat 0 mul_temps))).
(** 429-467 *)
Definition feSquare (f : FieldElement) : list Z := skipn square_out (run go_wrap square_code (f ++ repeat 0 square_temps)).
(** 475-478 *)
Definition FeSquare (f : FieldElement) : FieldElement := FeCombine (feSquare f).
(** 490-505 *)
Definition FeSquare2 (f : FieldElement) : FieldElement := FeCombine (run go_wrap double_code (feSquare f)).

(** [for i = 1; i < n; i++ { FeSquare(&t, &t) }] *)
Definition square_loop (n : nat) (t : FieldElement) : FieldElement := Nat.iter (n - 1) FeSquare t.

(** 507-560 *)
Definition FeInvert (z : FieldElement) : FieldElement :=
  let t0 := FeSquare z in
  let t1 := FeSquare t0 in
  let t1 := square_loop 2 t1 in
  let t1 := FeMul z t1 in
  let t0 := FeMul t0 t1 in
  let t2 := FeSquare t0 in
  let t1 := FeMul t1 t2 in
  let t2 := FeSquare t1 in
  let t2 := square_loop 5 t2 in
  let t1 := FeMul t2 t1 in
  let t2 := FeSquare t1 in
  let t2 := square_loop 10 t2 in
  let t2 := FeMul t2 t1 in
  let t3 := FeSquare t2 in
  let t3 := square_loop 20 t3 in
  let t2 := FeMul t3 t2 in
  let t2 := FeSquare t2 in
  let t2 := square_loop 10 t2 in
  let t1 := FeMul t2 t1 in
  let t2 := FeSquare t1 in
  let t2 := square_loop 50 t2 in
  let t2 := FeMul t2 t1 in
  let t3 := FeSquare t2 in
  let t3 := square_loop 100 t3 in
  let t2 := FeMul t3 t2 in
  let t2 := FeSquare t2 in
  let t2 := square_loop 50 t2 in
  let t1 := FeMul t2 t1 in
  let t1 := FeSquare t1 in
  let t1 := square_loop 5 t1 in
  FeMul t1 t0.

(** 562-620 *)
Definition fePow22523 (z : FieldElement) : FieldElement :=
  let t0 := FeSquare z in
  let t0 := square_loop 1 t0 in
  let t1 := FeSquare t0 in
  let t1 := square_loop 2 t1 in
  let t1 := FeMul z t1 in
  let t0 := FeMul t0 t1 in
  let t0 := FeSquare t0 in
  let t0 := square_loop 1 t0 in
  let t0 := FeMul t1 t0 in
  let t1 := FeSquare t0 in
  let t1 := square_loop 5 t1 in
  let t0 := FeMul t1 t0 in
  let t1 := FeSquare t0 in
  let t1 := square_loop 10 t1 in
  let t1 := FeMul t1 t0 in
  let t2 := FeSquare t1 in
  let t2 := square_loop 20 t2 in
  let t1 := FeMul t2 t1 in
  let t1 := FeSquare t1 in
  let t1 := square_loop 10 t1 in
  let t0 := FeMul t1 t0 in
  let t1 := FeSquare t0 in
  let t1 := square_loop 50 t1 in
  let t1 := FeMul t1 t0 in
  let t2 := FeSquare t1 in
  let t2 := square_loop 100 t2 in
  let t1 := FeMul t2 t1 in
  let t1 := FeSquare t1 in
  let t1 := square_loop 50 t1 in
  let t0 := FeMul t1 t0 in
  let t0 := FeSquare t0 in
  let t0 := square_loop 2 t0 in
  FeMul t0 z.

(** ** Points *)
(** 632-650 *)
Record ProjectiveGroupElement := mkProj { pX : FieldElement; pY : FieldElement; pZ : FieldElement }.
Record ExtendedGroupElement := mkExt { eX : FieldElement; eY : FieldElement; eZ : FieldElement; eT : FieldElement }.
Record CompletedGroupElement := mkComp { cX : FieldElement; cY : FieldElement; cZ : FieldElement; cT : FieldElement }.
Record CachedGroupElement := mkCached { cyPlusX : FieldElement; cyMinusX : FieldElement; caZ : FieldElement; T2d : FieldElement }.

(** 652-656 *)
Definition Proj_Zero : ProjectiveGroupElement := mkProj FeZero FeOne FeOne.
(** 658-670 *)
Definition Proj_Double (p : ProjectiveGroupElement) : CompletedGroupElement :=
  let rX := FeSquare (pX p) in
  let rZ := FeSquare (pY p) in
  let rT := FeSquare2 (pZ p) in
  let rY := FeAdd (pX p) (pY p) in
  let t0 := FeSquare rY in
  let rY := FeAdd rZ rX in
  let rZ := FeSub rZ rX in
  let rX := FeSub t0 rY in
  let rT := FeSub rT rZ in
  mkComp rX rY rZ rT.
(** 672-680 and 708-716: the two ToBytes methods have the same body. *)
Definition xyz_ToBytes (X Y Z : FieldElement) : bytes :=
  let recip := FeInvert Z in
  let x := FeMul X recip in
  let y := FeMul Y recip in
  let s := fst (FeToBytes y) in
  put s 31 (Z.lxor (nth 31 s 0) (u8 (Z.shiftl (fst (FeIsNegative x)) 7))).
Definition Proj_ToBytes (p : ProjectiveGroupElement) : bytes := xyz_ToBytes (pX p) (pY p) (pZ p).
Definition Ext_ToBytes (p : ExtendedGroupElement) : bytes := xyz_ToBytes (eX p) (eY p) (eZ p).
(** 682-687 *)
Definition Ext_Zero : ExtendedGroupElement := mkExt FeZero FeOne FeOne FeZero.
(** 702-706 *)
Definition Ext_ToProjective (p : ExtendedGroupElement) : ProjectiveGroupElement := mkProj (eX p) (eY p) (eZ p).
(** 689-693 *)
Definition Ext_Double (p : ExtendedGroupElement) : CompletedGroupElement := Proj_Double (Ext_ToProjective p).
(** 695-700 *)
Definition Ext_ToCached (p : ExtendedGroupElement) : CachedGroupElement :=
  mkCached (FeAdd (eY p) (eX p)) (FeSub (eY p) (eX p)) (eZ p) (FeMul (eT p) const_d2).
(** 764-768 *)
Definition Comp_ToProjective (p : CompletedGroupElement) : ProjectiveGroupElement :=
  mkProj (FeMul (cX p) (cT p)) (FeMul (cY p) (cZ p)) (FeMul (cZ p) (cT p)).
(** 770-775 *)
Definition Comp_ToExtended (p : CompletedGroupElement) : ExtendedGroupElement :=
  mkExt (FeMul (cX p) (cT p)) (FeMul (cY p) (cZ p)) (FeMul (cZ p) (cT p)) (FeMul (cX p) (cY p)).
(** 777-781 *)
Definition Pre_Zero : PreComputedGroupElement := mkPre FeOne FeOne FeZero.

(** 718-762: None for false. The reversed copy tmp2 of lines 749-752 is never used and left out; that FeToBytes
    rewrites p.X at line 749 is not. *)
Definition Ext_FromBytes (s : bytes) : option ExtendedGroupElement :=
  let Y := FeFromBytes s in
  let Z := FeOne in
  let u := FeSquare Y in
  let v := FeMul u const_d in
  let u := FeSub u Z in
  let v := FeAdd v Z in
  let v3 := FeSquare v in
  let v3 := FeMul v3 v in
  let X := FeSquare v3 in
  let X := FeMul X v in
  let X := FeMul X u in
  let X := fePow22523 X in
  let X := FeMul X v3 in
  let X := FeMul X u in
  let vxx := FeSquare X in
  let vxx := FeMul vxx v in
  let check := FeSub vxx u in
  let finish X :=
    let (neg, X) := FeIsNegative X in
    let X := if negb (neg =? Z.shiftr (nth 31 s 0) 7) then FeNeg X else X in
    Some (mkExt X Y Z (FeMul X Y)) in
  if fst (FeIsNonZero check) =? 1 then
    let check := FeAdd vxx u in
    if fst (FeIsNonZero check) =? 1 then None else
    let X := FeMul X SqrtM1 in
    let X := snd (FeToBytes X) in
    finish X
  else finish X.

(** 783-797 *)
Definition geAdd (p : ExtendedGroupElement) (q : CachedGroupElement) : CompletedGroupElement :=
  let rX := FeAdd (eY p) (eX p) in
  let rY := FeSub (eY p) (eX p) in
  let rZ := FeMul rX (cyPlusX q) in
  let rY := FeMul rY (cyMinusX q) in
  let rT := FeMul (T2d q) (eT p) in
  let rX := FeMul (eZ p) (caZ q) in
  let t0 := FeAdd rX rX in
  let rX := FeSub rZ rY in
  let rY := FeAdd rZ rY in
  let rZ := FeAdd t0 rT in
  let rT := FeSub t0 rT in
  mkComp rX rY rZ rT.
(** 799-813 *)
Definition geSub (p : ExtendedGroupElement) (q : CachedGroupElement) : CompletedGroupElement :=
  let rX := FeAdd (eY p) (eX p) in
  let rY := FeSub (eY p) (eX p) in
  let rZ := FeMul rX (cyMinusX q) in
  let rY := FeMul rY (cyPlusX q) in
  let rT := FeMul (T2d q) (eT p) in
  let rX := FeMul (eZ p) (caZ q) in
  let t0 := FeAdd rX rX in
  let rX := FeSub rZ rY in
  let rY := FeAdd rZ rY in
  let rZ := FeSub t0 rT in
  let rT := FeAdd t0 rT in
  mkComp rX rY rZ rT.
(** 815-828 *)
Definition geMixedAdd (p : ExtendedGroupElement) (q : PreComputedGroupElement) : CompletedGroupElement :=
  let rX := FeAdd (eY p) (eX p) in
  let rY := FeSub (eY p) (eX p) in
  let rZ := FeMul rX (yPlusX q) in
  let rY := FeMul rY (yMinusX q) in
  let rT := FeMul (xy2d q) (eT p) in
  let t0 := FeAdd (eZ p) (eZ p) in
  let rX := FeSub rZ rY in
  let rY := FeAdd rZ rY in
  let rZ := FeAdd t0 rT in
  let rT := FeSub t0 rT in
  mkComp rX rY rZ rT.
(** 830-843 *)
Definition geMixedSub (p : ExtendedGroupElement) (q : PreComputedGroupElement) : CompletedGroupElement :=
  let rX := FeAdd (eY p) (eX p) in
  let rY := FeSub (eY p) (eX p) in
  let rZ := FeMul rX (yMinusX q) in
  let rY := FeMul rY (yPlusX q) in
  let rT := FeMul (xy2d q) (eT p) in
  let t0 := FeAdd (eZ p) (eZ p) in
  let rX := FeSub rZ rY in
  let rY := FeAdd rZ rY in
  let rZ := FeSub t0 rT in
  let rT := FeAdd t0 rT in
  mkComp rX rY rZ rT.

(** ** Scalar multiplication *)
(** 846-848 *)
Definition slide_bits (a : bytes) : list Z :=
  map (fun i => i8 (Z.land 1 (Z.shiftr (nth (i / 8) a 0) (Z.of_nat (i mod 8))))) (seq 0 256).
(** 859-865: [for k := i + b; k < 256; k++ { if r[k] == 0 { r[k] = 1; break }; r[k] = 0 }]; [n] is 256 - k. *)
Fixpoint slide_carry (n k : nat) (r : list Z) : list Z :=
  match n with
  | O => r
  | S n' => if get r k =? 0 then put r k 1 else slide_carry n' (S k) (put r k 0)
  end.
(** 852-871: the loop over b from [b] to 6 (while i + b < 256), for one i; [n] is 7 - b. *)
Fixpoint slide_inner (n b i : nat) (r : list Z) : list Z :=
  match n with
  | O => r
  | S n' =>
      if (i + b <? 256)%nat then
        if negb (get r (i + b) =? 0) then
          let t := i8 (Z.shiftl (get r (i + b)) (Z.of_nat b)) in
          if i8 (get r i + t) <=? 15 then
            slide_inner n' (S b) i (put (put r i (i8 (get r i + t))) (i + b) 0)
          else if i8 (get r i - t) >=? -15 then
            slide_inner n' (S b) i (slide_carry (256 - (i + b)) (i + b) (put r i (i8 (get r i - t))))
          else r
        else slide_inner n' (S b) i r
      else r
  end.
(** 845-873 *)
Definition slide (a : bytes) : list Z :=
  fold_left (fun r i => if negb (get r i =? 0) then slide_inner 6 1 i r else r) (seq 0 256) (slide_bits a).

(** 891-899: Ai[0] = A, Ai[i+1] = 2A + Ai[i] *)
Fixpoint odd_multiples (n : nat) (A2 : ExtendedGroupElement) (prev : CachedGroupElement) : list CachedGroupElement :=
  match n with
  | O => [prev]
  | S n' => prev :: odd_multiples n' A2 (Ext_ToCached (Comp_ToExtended (geAdd A2 prev)))
  end.
Definition cached0 : CachedGroupElement := mkCached FeZero FeZero FeZero FeZero.
Definition pre0 : PreComputedGroupElement := mkPre FeZero FeZero FeZero.
(** 903-907: the highest index with a non-zero digit, plus one (0 if there is none) *)
Fixpoint top_index (n : nat) (a b : list Z) : nat :=
  match n with
  | O => O
  | S i => if negb (get a i =? 0) || negb (get b i =? 0) then S i else top_index i a b
  end.
(** 909-928: one iteration *)
Definition vartime_step (Ai : list CachedGroupElement) (da db : Z) (r : ProjectiveGroupElement) : ProjectiveGroupElement :=
  let t := Proj_Double r in
  let t := if da >? 0 then geAdd (Comp_ToExtended t) (nth (Z.to_nat (Z.quot da 2)) Ai cached0)
           else if da <? 0 then geSub (Comp_ToExtended t) (nth (Z.to_nat (Z.quot (- da) 2)) Ai cached0) else t in
  let t := if db >? 0 then geMixedAdd (Comp_ToExtended t) (nth (Z.to_nat (Z.quot db 2)) bi_table pre0)
           else if db <? 0 then geMixedSub (Comp_ToExtended t) (nth (Z.to_nat (Z.quot (- db) 2)) bi_table pre0) else t in
  Comp_ToProjective t.
(** [for ; i >= 0; i--]; [n] is i + 1. *)
Fixpoint vartime_loop (n : nat) (Ai : list CachedGroupElement) (a b : list Z) (r : ProjectiveGroupElement) : ProjectiveGroupElement :=
  match n with O => r | S i => vartime_loop i Ai a b (vartime_step Ai (get a i) (get b i) r) end.
(** 879-929 *)
Definition GeDoubleScalarMultVartime (a : bytes) (A : ExtendedGroupElement) (b : bytes) : ProjectiveGroupElement :=
  let aSlide := slide a in
  let bSlide := slide b in
  let A2 := Comp_ToExtended (Ext_Double A) in
  let Ai := odd_multiples 7 A2 (Ext_ToCached A) in
  vartime_loop (top_index 256 aSlide bSlide) Ai aSlide bSlide Proj_Zero.

(** 932-936 *)
Definition equal (b c : Z) : Z :=
  let x := u32 (Z.lxor b c) in
  let x := u32 (x - 1) in
  i32 (Z.shiftr x 31).
(** 939-941 *)
Definition negative (b : Z) : Z := Z.land (Z.shiftr b 31) 1.
(** 943-947 *)
Definition Pre_CMove (t u : PreComputedGroupElement) (b : Z) : PreComputedGroupElement :=
  mkPre (FeCMove (yPlusX t) (yPlusX u) b) (FeCMove (yMinusX t) (yMinusX u) b) (FeCMove (xy2d t) (xy2d u) b).
(** 949-963: [row] is base[pos] *)
Definition selectRow (row : list PreComputedGroupElement) (b : Z) : PreComputedGroupElement :=
  let bNegative := negative b in
  let bAbs := i32 (b - i32 (Z.shiftl (Z.land (i32 (- bNegative)) b) 1)) in
  let t := fold_left (fun t i => Pre_CMove t (nth i row pre0) (equal bAbs (i32 (Z.of_nat i + 1)))) (seq 0 8) Pre_Zero in
  let minusT := mkPre (yMinusX t) (yPlusX t) (FeNeg (xy2d t)) in
  Pre_CMove t minusT bNegative.
Definition selectPoint (pos : nat) (b : Z) : PreComputedGroupElement := selectRow (nth pos base_table []) b.

(** 974-977: two 4-bit digits per byte *)
Definition nibbles (a : bytes) : list Z := flat_map (fun v => [i8 (Z.land v 15); i8 (Z.land (Z.shiftr v 4) 15)]) a.
(** 981-988: signed digits; the last one only receives the carry. *)
Fixpoint signed_digits (e : list Z) (carry : Z) : list Z :=
  match e with
  | [] => []
  | [x] => [i8 (x + carry)]
  | x :: r =>
      let x := i8 (x + carry) in
      let carry := Z.shiftr (i8 (x + 8)) 4 in
      i8 (x - i8 (Z.shiftl carry 4)) :: signed_digits r carry
  end.
(** 993-998, 1010-1014: the loops over i of one parity; i/2 is the table row. *)
Definition base_step (e : list Z) (h : ExtendedGroupElement) (i : nat) : ExtendedGroupElement :=
  Comp_ToExtended (geMixedAdd h (selectPoint (i / 2) (get e i))).
Definition odd_indices : list nat := map (fun k => 2 * k + 1)%nat (seq 0 32).
Definition even_indices : list nat := map (fun k => 2 * k)%nat (seq 0 32).
(** 970-1015 *)
Definition GeScalarMultBase (a : bytes) : ExtendedGroupElement :=
  let e := signed_digits (nibbles a) 0 in
  let h := fold_left (base_step e) odd_indices Ext_Zero in
  let s := Comp_ToProjective (Ext_Double h) in
  let s := Comp_ToProjective (Proj_Double s) in
  let s := Comp_ToProjective (Proj_Double s) in
  let h := Comp_ToExtended (Proj_Double s) in
  fold_left (base_step e) even_indices h.

(** ** Scalars *)
(** One of the loads [2097151 & (loadN(s[o:]) >> k)] *)
Definition load_limb (s : bytes) (l : bool * nat * nat * Z) : Z :=
  let '(masked, n, o, k) := l in
  let v := Z.shiftr (load n (skipn o s)) k in
  if masked then Z.land 2097151 v else v.
(** 1026-1449 *)
Definition ScMulAdd (a b c : bytes) : bytes :=
  let limbs x := map (load_limb x) muladd_loads in
  let s := skipn 36 (run go_wrap muladd_products (limbs a ++ limbs b ++ limbs c ++ repeat 0 24)) in
  let s := run go_wrap muladd_carries s in
  let s := run go_wrap reduce_code s in
  map (store W64 s) scalar_stores.
(** 1457-1773 *)
Definition ScReduce (s : bytes) : bytes :=
  map (store W64 (run go_wrap reduce_code (map (load_limb s) reduce_loads))) scalar_stores.

(** 1776 *)
Definition order : list Z := [0x5812631a5cf5d3ed; 0x14def9dea2f79cd6; 0; 0x1000000000000000].
(** binary.LittleEndian.Uint64 *)
Definition le_uint64 (s : bytes) : Z := fold_right (fun i v => Z.lor v (Z.shiftl (nth i s 0) (8 * Z.of_nat i))) 0 (rev (seq 0 8)).
(** 1780-1793: the loop from i = n - 1 down *)
Fixpoint minimal_loop (n : nat) (s : bytes) : bool :=
  match n with
  | O => true (* not reached *)
  | S i =>
      let v := le_uint64 (skipn (i * 8) s) in
      if v >? nth i order 0 then false
      else if v <? nth i order 0 then true
      else if (i =? 0)%nat then false
      else minimal_loop i s
  end.
Definition ScMinimal (s : bytes) : bool := minimal_loop 4 s.
