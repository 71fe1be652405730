(** The straight-line code of /repo/crypto/edwards25519/edwards25519.go, transcribed statement by statement into
    the instructions of Model/Limb.v. *)
From Verif.Model Require Import Base Limb.

(** edwards25519.go:260-347: FeCombine, the carries on h0..h9 (registers 0-9); the stores h[i] = int32(hi) are in [FeCombine] *)

Definition combine_code : list instr :=
  [ ICarry W64 true 0 1 26 1;
    ICarry W64 true 4 5 26 1;
    ICarry W64 true 1 2 25 1;
    ICarry W64 true 5 6 25 1;
    ICarry W64 true 2 3 26 1;
    ICarry W64 true 6 7 26 1;
    ICarry W64 true 3 4 25 1;
    ICarry W64 true 7 8 25 1;
    ICarry W64 true 4 5 26 1;
    ICarry W64 true 8 9 26 1;
    ICarry W64 true 9 0 25 19;
    ICarry W64 true 0 1 26 1 ].

(** edwards25519.go:376-427: FeMul. Registers 0-9 hold f, 10-19 hold g, 20-33 the multiples f1_2 .. g9_19, 34-43 hold h0..h9. (Reading f[i] as int64(f[i]) changes nothing: it is a sign extension.) *)

Definition mul_code : list instr :=
  [ ISet 20 (EMul32 (EK 2) (EV 1));
    ISet 21 (EMul32 (EK 2) (EV 3));
    ISet 22 (EMul32 (EK 2) (EV 5));
    ISet 23 (EMul32 (EK 2) (EV 7));
    ISet 24 (EMul32 (EK 2) (EV 9));
    ISet 25 (EMul32 (EK 19) (EV 11));
    ISet 26 (EMul32 (EK 19) (EV 12));
    ISet 27 (EMul32 (EK 19) (EV 13));
    ISet 28 (EMul32 (EK 19) (EV 14));
    ISet 29 (EMul32 (EK 19) (EV 15));
    ISet 30 (EMul32 (EK 19) (EV 16));
    ISet 31 (EMul32 (EK 19) (EV 17));
    ISet 32 (EMul32 (EK 19) (EV 18));
    ISet 33 (EMul32 (EK 19) (EV 19));
    ISet 34 (EAdd (EAdd (EAdd (EAdd (EAdd (EAdd (EAdd (EAdd (EAdd (EMul (EV 0) (EV 10)) (EMul (EV 20) (EV 33))) (EMul (EV 2) (EV 32))) (EMul (EV 21) (EV 31))) (EMul (EV 4) (EV 30))) (EMul (EV 22) (EV 29))) (EMul (EV 6) (EV 28))) (EMul (EV 23) (EV 27))) (EMul (EV 8) (EV 26))) (EMul (EV 24) (EV 25)));
    ISet 35 (EAdd (EAdd (EAdd (EAdd (EAdd (EAdd (EAdd (EAdd (EAdd (EMul (EV 0) (EV 11)) (EMul (EV 1) (EV 10))) (EMul (EV 2) (EV 33))) (EMul (EV 3) (EV 32))) (EMul (EV 4) (EV 31))) (EMul (EV 5) (EV 30))) (EMul (EV 6) (EV 29))) (EMul (EV 7) (EV 28))) (EMul (EV 8) (EV 27))) (EMul (EV 9) (EV 26)));
    ISet 36 (EAdd (EAdd (EAdd (EAdd (EAdd (EAdd (EAdd (EAdd (EAdd (EMul (EV 0) (EV 12)) (EMul (EV 20) (EV 11))) (EMul (EV 2) (EV 10))) (EMul (EV 21) (EV 33))) (EMul (EV 4) (EV 32))) (EMul (EV 22) (EV 31))) (EMul (EV 6) (EV 30))) (EMul (EV 23) (EV 29))) (EMul (EV 8) (EV 28))) (EMul (EV 24) (EV 27)));
    ISet 37 (EAdd (EAdd (EAdd (EAdd (EAdd (EAdd (EAdd (EAdd (EAdd (EMul (EV 0) (EV 13)) (EMul (EV 1) (EV 12))) (EMul (EV 2) (EV 11))) (EMul (EV 3) (EV 10))) (EMul (EV 4) (EV 33))) (EMul (EV 5) (EV 32))) (EMul (EV 6) (EV 31))) (EMul (EV 7) (EV 30))) (EMul (EV 8) (EV 29))) (EMul (EV 9) (EV 28)));
    ISet 38 (EAdd (EAdd (EAdd (EAdd (EAdd (EAdd (EAdd (EAdd (EAdd (EMul (EV 0) (EV 14)) (EMul (EV 20) (EV 13))) (EMul (EV 2) (EV 12))) (EMul (EV 21) (EV 11))) (EMul (EV 4) (EV 10))) (EMul (EV 22) (EV 33))) (EMul (EV 6) (EV 32))) (EMul (EV 23) (EV 31))) (EMul (EV 8) (EV 30))) (EMul (EV 24) (EV 29)));
    ISet 39 (EAdd (EAdd (EAdd (EAdd (EAdd (EAdd (EAdd (EAdd (EAdd (EMul (EV 0) (EV 15)) (EMul (EV 1) (EV 14))) (EMul (EV 2) (EV 13))) (EMul (EV 3) (EV 12))) (EMul (EV 4) (EV 11))) (EMul (EV 5) (EV 10))) (EMul (EV 6) (EV 33))) (EMul (EV 7) (EV 32))) (EMul (EV 8) (EV 31))) (EMul (EV 9) (EV 30)));
    ISet 40 (EAdd (EAdd (EAdd (EAdd (EAdd (EAdd (EAdd (EAdd (EAdd (EMul (EV 0) (EV 16)) (EMul (EV 20) (EV 15))) (EMul (EV 2) (EV 14))) (EMul (EV 21) (EV 13))) (EMul (EV 4) (EV 12))) (EMul (EV 22) (EV 11))) (EMul (EV 6) (EV 10))) (EMul (EV 23) (EV 33))) (EMul (EV 8) (EV 32))) (EMul (EV 24) (EV 31)));
    ISet 41 (EAdd (EAdd (EAdd (EAdd (EAdd (EAdd (EAdd (EAdd (EAdd (EMul (EV 0) (EV 17)) (EMul (EV 1) (EV 16))) (EMul (EV 2) (EV 15))) (EMul (EV 3) (EV 14))) (EMul (EV 4) (EV 13))) (EMul (EV 5) (EV 12))) (EMul (EV 6) (EV 11))) (EMul (EV 7) (EV 10))) (EMul (EV 8) (EV 33))) (EMul (EV 9) (EV 32)));
    ISet 42 (EAdd (EAdd (EAdd (EAdd (EAdd (EAdd (EAdd (EAdd (EAdd (EMul (EV 0) (EV 18)) (EMul (EV 20) (EV 17))) (EMul (EV 2) (EV 16))) (EMul (EV 21) (EV 15))) (EMul (EV 4) (EV 14))) (EMul (EV 22) (EV 13))) (EMul (EV 6) (EV 12))) (EMul (EV 23) (EV 11))) (EMul (EV 8) (EV 10))) (EMul (EV 24) (EV 33)));
    ISet 43 (EAdd (EAdd (EAdd (EAdd (EAdd (EAdd (EAdd (EAdd (EAdd (EMul (EV 0) (EV 19)) (EMul (EV 1) (EV 18))) (EMul (EV 2) (EV 17))) (EMul (EV 3) (EV 16))) (EMul (EV 4) (EV 15))) (EMul (EV 5) (EV 14))) (EMul (EV 6) (EV 13))) (EMul (EV 7) (EV 12))) (EMul (EV 8) (EV 11))) (EMul (EV 9) (EV 10))) ].

Definition mul_temps : nat := 24. Definition mul_out : nat := 34.

(** edwards25519.go:429-466: feSquare. Registers 0-9 hold f, 10-22 the multiples f0_2 .. f9_38, 23-32 hold h0..h9. *)

Definition square_code : list instr :=
  [ ISet 10 (EMul32 (EK 2) (EV 0));
    ISet 11 (EMul32 (EK 2) (EV 1));
    ISet 12 (EMul32 (EK 2) (EV 2));
    ISet 13 (EMul32 (EK 2) (EV 3));
    ISet 14 (EMul32 (EK 2) (EV 4));
    ISet 15 (EMul32 (EK 2) (EV 5));
    ISet 16 (EMul32 (EK 2) (EV 6));
    ISet 17 (EMul32 (EK 2) (EV 7));
    ISet 18 (EMul (EK 38) (EV 5));
    ISet 19 (EMul (EK 19) (EV 6));
    ISet 20 (EMul (EK 38) (EV 7));
    ISet 21 (EMul (EK 19) (EV 8));
    ISet 22 (EMul (EK 38) (EV 9));
    ISet 23 (EAdd (EAdd (EAdd (EAdd (EAdd (EMul (EV 0) (EV 0)) (EMul (EV 11) (EV 22))) (EMul (EV 12) (EV 21))) (EMul (EV 13) (EV 20))) (EMul (EV 14) (EV 19))) (EMul (EV 5) (EV 18)));
    ISet 24 (EAdd (EAdd (EAdd (EAdd (EMul (EV 10) (EV 1)) (EMul (EV 2) (EV 22))) (EMul (EV 13) (EV 21))) (EMul (EV 4) (EV 20))) (EMul (EV 15) (EV 19)));
    ISet 25 (EAdd (EAdd (EAdd (EAdd (EAdd (EMul (EV 10) (EV 2)) (EMul (EV 11) (EV 1))) (EMul (EV 13) (EV 22))) (EMul (EV 14) (EV 21))) (EMul (EV 15) (EV 20))) (EMul (EV 6) (EV 19)));
    ISet 26 (EAdd (EAdd (EAdd (EAdd (EMul (EV 10) (EV 3)) (EMul (EV 11) (EV 2))) (EMul (EV 4) (EV 22))) (EMul (EV 15) (EV 21))) (EMul (EV 6) (EV 20)));
    ISet 27 (EAdd (EAdd (EAdd (EAdd (EAdd (EMul (EV 10) (EV 4)) (EMul (EV 11) (EV 13))) (EMul (EV 2) (EV 2))) (EMul (EV 15) (EV 22))) (EMul (EV 16) (EV 21))) (EMul (EV 7) (EV 20)));
    ISet 28 (EAdd (EAdd (EAdd (EAdd (EMul (EV 10) (EV 5)) (EMul (EV 11) (EV 4))) (EMul (EV 12) (EV 3))) (EMul (EV 6) (EV 22))) (EMul (EV 17) (EV 21)));
    ISet 29 (EAdd (EAdd (EAdd (EAdd (EAdd (EMul (EV 10) (EV 6)) (EMul (EV 11) (EV 15))) (EMul (EV 12) (EV 4))) (EMul (EV 13) (EV 3))) (EMul (EV 17) (EV 22))) (EMul (EV 8) (EV 21)));
    ISet 30 (EAdd (EAdd (EAdd (EAdd (EMul (EV 10) (EV 7)) (EMul (EV 11) (EV 6))) (EMul (EV 12) (EV 5))) (EMul (EV 13) (EV 4))) (EMul (EV 8) (EV 22)));
    ISet 31 (EAdd (EAdd (EAdd (EAdd (EAdd (EMul (EV 10) (EV 8)) (EMul (EV 11) (EV 17))) (EMul (EV 12) (EV 6))) (EMul (EV 13) (EV 15))) (EMul (EV 4) (EV 4))) (EMul (EV 9) (EV 22)));
    ISet 32 (EAdd (EAdd (EAdd (EAdd (EMul (EV 10) (EV 9)) (EMul (EV 11) (EV 8))) (EMul (EV 12) (EV 7))) (EMul (EV 13) (EV 6))) (EMul (EV 14) (EV 5))) ].

Definition square_temps : nat := 23. Definition square_out : nat := 23.

(** edwards25519.go:493-502: FeSquare2, the doublings h0 += h0 .. *)

Definition double_code : list instr :=
  [ ISet 0 (EAdd (EV 0) (EV 0));
    ISet 1 (EAdd (EV 1) (EV 1));
    ISet 2 (EAdd (EV 2) (EV 2));
    ISet 3 (EAdd (EV 3) (EV 3));
    ISet 4 (EAdd (EV 4) (EV 4));
    ISet 5 (EAdd (EV 5) (EV 5));
    ISet 6 (EAdd (EV 6) (EV 6));
    ISet 7 (EAdd (EV 7) (EV 7));
    ISet 8 (EAdd (EV 8) (EV 8));
    ISet 9 (EAdd (EV 9) (EV 9)) ].

(** edwards25519.go:151-179: FeToBytes, the carries on h[0]..h[9] (registers 0-9) *)

Definition tobytes_code : list instr :=
  [ ICarry W32 false 0 1 26 1;
    ICarry W32 false 1 2 25 1;
    ICarry W32 false 2 3 26 1;
    ICarry W32 false 3 4 25 1;
    ICarry W32 false 4 5 26 1;
    ICarry W32 false 5 6 25 1;
    ICarry W32 false 6 7 26 1;
    ICarry W32 false 7 8 25 1;
    ICarry W32 false 8 9 26 1;
    ITop W32 9 25 ].

(** edwards25519.go:132-219: FeToBytes, the stores s[n] = byte((h[i] >> a) | (h[j] << b)) as (i, a, Some (j, b)); those with one operand as (i, a, None) *)

Definition tobytes_stores : list (nat * Z * option (nat * Z)) :=
  [ ((0%nat, 0), None); ((0%nat, 8), None); ((0%nat, 16), None); ((0%nat, 24), Some (1%nat, 2)); ((1%nat, 6), None); ((1%nat, 14), None); ((1%nat, 22), Some (2%nat, 3)); ((2%nat, 5), None); ((2%nat, 13), None); ((2%nat, 21), Some (3%nat, 5)); ((3%nat, 3), None); ((3%nat, 11), None); ((3%nat, 19), Some (4%nat, 6)); ((4%nat, 2), None); ((4%nat, 10), None); ((4%nat, 18), None); ((5%nat, 0), None); ((5%nat, 8), None); ((5%nat, 16), None); ((5%nat, 24), Some (6%nat, 1)); ((6%nat, 7), None); ((6%nat, 15), None); ((6%nat, 23), Some (7%nat, 3)); ((7%nat, 5), None); ((7%nat, 13), None); ((7%nat, 21), Some (8%nat, 4)); ((8%nat, 4), None); ((8%nat, 12), None); ((8%nat, 20), Some (9%nat, 6)); ((9%nat, 2), None); ((9%nat, 10), None); ((9%nat, 18), None) ].

(** edwards25519.go:1458-1481: the loads s_i := 2097151 & (loadN(s[o:]) >> k) of ScReduce as (masked, N, o, k). *)

Definition reduce_loads : list (bool * nat * nat * Z) :=
  [ (true, 3%nat, 0%nat, 0); (true, 4%nat, 2%nat, 5); (true, 3%nat, 5%nat, 2); (true, 4%nat, 7%nat, 7); (true, 4%nat, 10%nat, 4); (true, 3%nat, 13%nat, 1); (true, 4%nat, 15%nat, 6); (true, 3%nat, 18%nat, 3); (true, 3%nat, 21%nat, 0); (true, 4%nat, 23%nat, 5); (true, 3%nat, 26%nat, 2); (true, 4%nat, 28%nat, 7); (true, 4%nat, 31%nat, 4); (true, 3%nat, 34%nat, 1); (true, 4%nat, 36%nat, 6); (true, 3%nat, 39%nat, 3); (true, 3%nat, 42%nat, 0); (true, 4%nat, 44%nat, 5); (true, 3%nat, 47%nat, 2); (true, 4%nat, 49%nat, 7); (true, 4%nat, 52%nat, 4); (true, 3%nat, 55%nat, 1); (true, 4%nat, 57%nat, 6); (false, 4%nat, 60%nat, 3) ].

(** edwards25519.go:1483-1740: ScReduce after the loads; registers 0-23 hold s0..s23 *)

Definition reduce_code : list instr :=
  [ IFold 23 [(false, 11%nat, 666643); (false, 12%nat, 470296); (false, 13%nat, 654183); (true, 14%nat, 997805); (false, 15%nat, 136657); (true, 16%nat, 683901)];
    IFold 22 [(false, 10%nat, 666643); (false, 11%nat, 470296); (false, 12%nat, 654183); (true, 13%nat, 997805); (false, 14%nat, 136657); (true, 15%nat, 683901)];
    IFold 21 [(false, 9%nat, 666643); (false, 10%nat, 470296); (false, 11%nat, 654183); (true, 12%nat, 997805); (false, 13%nat, 136657); (true, 14%nat, 683901)];
    IFold 20 [(false, 8%nat, 666643); (false, 9%nat, 470296); (false, 10%nat, 654183); (true, 11%nat, 997805); (false, 12%nat, 136657); (true, 13%nat, 683901)];
    IFold 19 [(false, 7%nat, 666643); (false, 8%nat, 470296); (false, 9%nat, 654183); (true, 10%nat, 997805); (false, 11%nat, 136657); (true, 12%nat, 683901)];
    IFold 18 [(false, 6%nat, 666643); (false, 7%nat, 470296); (false, 8%nat, 654183); (true, 9%nat, 997805); (false, 10%nat, 136657); (true, 11%nat, 683901)];
    ICarry W64 true 6 7 21 1;
    ICarry W64 true 8 9 21 1;
    ICarry W64 true 10 11 21 1;
    ICarry W64 true 12 13 21 1;
    ICarry W64 true 14 15 21 1;
    ICarry W64 true 16 17 21 1;
    ICarry W64 true 7 8 21 1;
    ICarry W64 true 9 10 21 1;
    ICarry W64 true 11 12 21 1;
    ICarry W64 true 13 14 21 1;
    ICarry W64 true 15 16 21 1;
    IFold 17 [(false, 5%nat, 666643); (false, 6%nat, 470296); (false, 7%nat, 654183); (true, 8%nat, 997805); (false, 9%nat, 136657); (true, 10%nat, 683901)];
    IFold 16 [(false, 4%nat, 666643); (false, 5%nat, 470296); (false, 6%nat, 654183); (true, 7%nat, 997805); (false, 8%nat, 136657); (true, 9%nat, 683901)];
    IFold 15 [(false, 3%nat, 666643); (false, 4%nat, 470296); (false, 5%nat, 654183); (true, 6%nat, 997805); (false, 7%nat, 136657); (true, 8%nat, 683901)];
    IFold 14 [(false, 2%nat, 666643); (false, 3%nat, 470296); (false, 4%nat, 654183); (true, 5%nat, 997805); (false, 6%nat, 136657); (true, 7%nat, 683901)];
    IFold 13 [(false, 1%nat, 666643); (false, 2%nat, 470296); (false, 3%nat, 654183); (true, 4%nat, 997805); (false, 5%nat, 136657); (true, 6%nat, 683901)];
    IFold 12 [(false, 0%nat, 666643); (false, 1%nat, 470296); (false, 2%nat, 654183); (true, 3%nat, 997805); (false, 4%nat, 136657); (true, 5%nat, 683901)];
    ICarry W64 true 0 1 21 1;
    ICarry W64 true 2 3 21 1;
    ICarry W64 true 4 5 21 1;
    ICarry W64 true 6 7 21 1;
    ICarry W64 true 8 9 21 1;
    ICarry W64 true 10 11 21 1;
    ICarry W64 true 1 2 21 1;
    ICarry W64 true 3 4 21 1;
    ICarry W64 true 5 6 21 1;
    ICarry W64 true 7 8 21 1;
    ICarry W64 true 9 10 21 1;
    ICarry W64 true 11 12 21 1;
    IFold 12 [(false, 0%nat, 666643); (false, 1%nat, 470296); (false, 2%nat, 654183); (true, 3%nat, 997805); (false, 4%nat, 136657); (true, 5%nat, 683901)];
    ICarry W64 false 0 1 21 1;
    ICarry W64 false 1 2 21 1;
    ICarry W64 false 2 3 21 1;
    ICarry W64 false 3 4 21 1;
    ICarry W64 false 4 5 21 1;
    ICarry W64 false 5 6 21 1;
    ICarry W64 false 6 7 21 1;
    ICarry W64 false 7 8 21 1;
    ICarry W64 false 8 9 21 1;
    ICarry W64 false 9 10 21 1;
    ICarry W64 false 10 11 21 1;
    ICarry W64 false 11 12 21 1;
    IFold 12 [(false, 0%nat, 666643); (false, 1%nat, 470296); (false, 2%nat, 654183); (true, 3%nat, 997805); (false, 4%nat, 136657); (true, 5%nat, 683901)];
    ICarry W64 false 0 1 21 1;
    ICarry W64 false 1 2 21 1;
    ICarry W64 false 2 3 21 1;
    ICarry W64 false 3 4 21 1;
    ICarry W64 false 4 5 21 1;
    ICarry W64 false 5 6 21 1;
    ICarry W64 false 6 7 21 1;
    ICarry W64 false 7 8 21 1;
    ICarry W64 false 8 9 21 1;
    ICarry W64 false 9 10 21 1;
    ICarry W64 false 10 11 21 1 ].

(** edwards25519.go:1740-1772 (and the identical stores of ScMulAdd): ScReduce, the stores out[n] = byte((s_i >> a) | (s_j << b)) *)

Definition scalar_stores : list (nat * Z * option (nat * Z)) :=
  [ ((0%nat, 0), None); ((0%nat, 8), None); ((0%nat, 16), Some (1%nat, 5)); ((1%nat, 3), None); ((1%nat, 11), None); ((1%nat, 19), Some (2%nat, 2)); ((2%nat, 6), None); ((2%nat, 14), Some (3%nat, 7)); ((3%nat, 1), None); ((3%nat, 9), None); ((3%nat, 17), Some (4%nat, 4)); ((4%nat, 4), None); ((4%nat, 12), None); ((4%nat, 20), Some (5%nat, 1)); ((5%nat, 7), None); ((5%nat, 15), Some (6%nat, 6)); ((6%nat, 2), None); ((6%nat, 10), None); ((6%nat, 18), Some (7%nat, 3)); ((7%nat, 5), None); ((7%nat, 13), None); ((8%nat, 0), None); ((8%nat, 8), None); ((8%nat, 16), Some (9%nat, 5)); ((9%nat, 3), None); ((9%nat, 11), None); ((9%nat, 19), Some (10%nat, 2)); ((10%nat, 6), None); ((10%nat, 14), Some (11%nat, 7)); ((11%nat, 1), None); ((11%nat, 9), None); ((11%nat, 17), None) ].

(** edwards25519.go:1027-1062: the loads of ScMulAdd, the same for a, b and c. *)

Definition muladd_loads : list (bool * nat * nat * Z) :=
  [ (true, 3%nat, 0%nat, 0); (true, 4%nat, 2%nat, 5); (true, 3%nat, 5%nat, 2); (true, 4%nat, 7%nat, 7); (true, 4%nat, 10%nat, 4); (true, 3%nat, 13%nat, 1); (true, 4%nat, 15%nat, 6); (true, 3%nat, 18%nat, 3); (true, 3%nat, 21%nat, 0); (true, 4%nat, 23%nat, 5); (true, 3%nat, 26%nat, 2); (false, 4%nat, 28%nat, 7) ].

(** edwards25519.go:1065-1088: ScMulAdd, the products; registers 0-11, 12-23, 24-35 hold the limbs of a, b, c, and 36-59 receive s0..s23 *)

Definition muladd_products : list instr :=
  [ ISet 36 (EAdd (EV 24) (EMul (EV 0) (EV 12)));
    ISet 37 (EAdd (EAdd (EV 25) (EMul (EV 0) (EV 13))) (EMul (EV 1) (EV 12)));
    ISet 38 (EAdd (EAdd (EAdd (EV 26) (EMul (EV 0) (EV 14))) (EMul (EV 1) (EV 13))) (EMul (EV 2) (EV 12)));
    ISet 39 (EAdd (EAdd (EAdd (EAdd (EV 27) (EMul (EV 0) (EV 15))) (EMul (EV 1) (EV 14))) (EMul (EV 2) (EV 13))) (EMul (EV 3) (EV 12)));
    ISet 40 (EAdd (EAdd (EAdd (EAdd (EAdd (EV 28) (EMul (EV 0) (EV 16))) (EMul (EV 1) (EV 15))) (EMul (EV 2) (EV 14))) (EMul (EV 3) (EV 13))) (EMul (EV 4) (EV 12)));
    ISet 41 (EAdd (EAdd (EAdd (EAdd (EAdd (EAdd (EV 29) (EMul (EV 0) (EV 17))) (EMul (EV 1) (EV 16))) (EMul (EV 2) (EV 15))) (EMul (EV 3) (EV 14))) (EMul (EV 4) (EV 13))) (EMul (EV 5) (EV 12)));
    ISet 42 (EAdd (EAdd (EAdd (EAdd (EAdd (EAdd (EAdd (EV 30) (EMul (EV 0) (EV 18))) (EMul (EV 1) (EV 17))) (EMul (EV 2) (EV 16))) (EMul (EV 3) (EV 15))) (EMul (EV 4) (EV 14))) (EMul (EV 5) (EV 13))) (EMul (EV 6) (EV 12)));
    ISet 43 (EAdd (EAdd (EAdd (EAdd (EAdd (EAdd (EAdd (EAdd (EV 31) (EMul (EV 0) (EV 19))) (EMul (EV 1) (EV 18))) (EMul (EV 2) (EV 17))) (EMul (EV 3) (EV 16))) (EMul (EV 4) (EV 15))) (EMul (EV 5) (EV 14))) (EMul (EV 6) (EV 13))) (EMul (EV 7) (EV 12)));
    ISet 44 (EAdd (EAdd (EAdd (EAdd (EAdd (EAdd (EAdd (EAdd (EAdd (EV 32) (EMul (EV 0) (EV 20))) (EMul (EV 1) (EV 19))) (EMul (EV 2) (EV 18))) (EMul (EV 3) (EV 17))) (EMul (EV 4) (EV 16))) (EMul (EV 5) (EV 15))) (EMul (EV 6) (EV 14))) (EMul (EV 7) (EV 13))) (EMul (EV 8) (EV 12)));
    ISet 45 (EAdd (EAdd (EAdd (EAdd (EAdd (EAdd (EAdd (EAdd (EAdd (EAdd (EV 33) (EMul (EV 0) (EV 21))) (EMul (EV 1) (EV 20))) (EMul (EV 2) (EV 19))) (EMul (EV 3) (EV 18))) (EMul (EV 4) (EV 17))) (EMul (EV 5) (EV 16))) (EMul (EV 6) (EV 15))) (EMul (EV 7) (EV 14))) (EMul (EV 8) (EV 13))) (EMul (EV 9) (EV 12)));
    ISet 46 (EAdd (EAdd (EAdd (EAdd (EAdd (EAdd (EAdd (EAdd (EAdd (EAdd (EAdd (EV 34) (EMul (EV 0) (EV 22))) (EMul (EV 1) (EV 21))) (EMul (EV 2) (EV 20))) (EMul (EV 3) (EV 19))) (EMul (EV 4) (EV 18))) (EMul (EV 5) (EV 17))) (EMul (EV 6) (EV 16))) (EMul (EV 7) (EV 15))) (EMul (EV 8) (EV 14))) (EMul (EV 9) (EV 13))) (EMul (EV 10) (EV 12)));
    ISet 47 (EAdd (EAdd (EAdd (EAdd (EAdd (EAdd (EAdd (EAdd (EAdd (EAdd (EAdd (EAdd (EV 35) (EMul (EV 0) (EV 23))) (EMul (EV 1) (EV 22))) (EMul (EV 2) (EV 21))) (EMul (EV 3) (EV 20))) (EMul (EV 4) (EV 19))) (EMul (EV 5) (EV 18))) (EMul (EV 6) (EV 17))) (EMul (EV 7) (EV 16))) (EMul (EV 8) (EV 15))) (EMul (EV 9) (EV 14))) (EMul (EV 10) (EV 13))) (EMul (EV 11) (EV 12)));
    ISet 48 (EAdd (EAdd (EAdd (EAdd (EAdd (EAdd (EAdd (EAdd (EAdd (EAdd (EMul (EV 1) (EV 23)) (EMul (EV 2) (EV 22))) (EMul (EV 3) (EV 21))) (EMul (EV 4) (EV 20))) (EMul (EV 5) (EV 19))) (EMul (EV 6) (EV 18))) (EMul (EV 7) (EV 17))) (EMul (EV 8) (EV 16))) (EMul (EV 9) (EV 15))) (EMul (EV 10) (EV 14))) (EMul (EV 11) (EV 13)));
    ISet 49 (EAdd (EAdd (EAdd (EAdd (EAdd (EAdd (EAdd (EAdd (EAdd (EMul (EV 2) (EV 23)) (EMul (EV 3) (EV 22))) (EMul (EV 4) (EV 21))) (EMul (EV 5) (EV 20))) (EMul (EV 6) (EV 19))) (EMul (EV 7) (EV 18))) (EMul (EV 8) (EV 17))) (EMul (EV 9) (EV 16))) (EMul (EV 10) (EV 15))) (EMul (EV 11) (EV 14)));
    ISet 50 (EAdd (EAdd (EAdd (EAdd (EAdd (EAdd (EAdd (EAdd (EMul (EV 3) (EV 23)) (EMul (EV 4) (EV 22))) (EMul (EV 5) (EV 21))) (EMul (EV 6) (EV 20))) (EMul (EV 7) (EV 19))) (EMul (EV 8) (EV 18))) (EMul (EV 9) (EV 17))) (EMul (EV 10) (EV 16))) (EMul (EV 11) (EV 15)));
    ISet 51 (EAdd (EAdd (EAdd (EAdd (EAdd (EAdd (EAdd (EMul (EV 4) (EV 23)) (EMul (EV 5) (EV 22))) (EMul (EV 6) (EV 21))) (EMul (EV 7) (EV 20))) (EMul (EV 8) (EV 19))) (EMul (EV 9) (EV 18))) (EMul (EV 10) (EV 17))) (EMul (EV 11) (EV 16)));
    ISet 52 (EAdd (EAdd (EAdd (EAdd (EAdd (EAdd (EMul (EV 5) (EV 23)) (EMul (EV 6) (EV 22))) (EMul (EV 7) (EV 21))) (EMul (EV 8) (EV 20))) (EMul (EV 9) (EV 19))) (EMul (EV 10) (EV 18))) (EMul (EV 11) (EV 17)));
    ISet 53 (EAdd (EAdd (EAdd (EAdd (EAdd (EMul (EV 6) (EV 23)) (EMul (EV 7) (EV 22))) (EMul (EV 8) (EV 21))) (EMul (EV 9) (EV 20))) (EMul (EV 10) (EV 19))) (EMul (EV 11) (EV 18)));
    ISet 54 (EAdd (EAdd (EAdd (EAdd (EMul (EV 7) (EV 23)) (EMul (EV 8) (EV 22))) (EMul (EV 9) (EV 21))) (EMul (EV 10) (EV 20))) (EMul (EV 11) (EV 19)));
    ISet 55 (EAdd (EAdd (EAdd (EMul (EV 8) (EV 23)) (EMul (EV 9) (EV 22))) (EMul (EV 10) (EV 21))) (EMul (EV 11) (EV 20)));
    ISet 56 (EAdd (EAdd (EMul (EV 9) (EV 23)) (EMul (EV 10) (EV 22))) (EMul (EV 11) (EV 21)));
    ISet 57 (EAdd (EMul (EV 10) (EV 23)) (EMul (EV 11) (EV 22)));
    ISet 58 (EMul (EV 11) (EV 23));
    ISet 59 (EK 0) ].

(** edwards25519.go:1063-..: ScMulAdd, the first carries; registers 0-23 hold s0..s23. The statements that follow, up to the stores, are those of [reduce_code] *)

Definition muladd_carries : list instr :=
  [ ICarry W64 true 0 1 21 1;
    ICarry W64 true 2 3 21 1;
    ICarry W64 true 4 5 21 1;
    ICarry W64 true 6 7 21 1;
    ICarry W64 true 8 9 21 1;
    ICarry W64 true 10 11 21 1;
    ICarry W64 true 12 13 21 1;
    ICarry W64 true 14 15 21 1;
    ICarry W64 true 16 17 21 1;
    ICarry W64 true 18 19 21 1;
    ICarry W64 true 20 21 21 1;
    ICarry W64 true 22 23 21 1;
    ICarry W64 true 1 2 21 1;
    ICarry W64 true 3 4 21 1;
    ICarry W64 true 5 6 21 1;
    ICarry W64 true 7 8 21 1;
    ICarry W64 true 9 10 21 1;
    ICarry W64 true 11 12 21 1;
    ICarry W64 true 13 14 21 1;
    ICarry W64 true 15 16 21 1;
    ICarry W64 true 17 18 21 1;
    ICarry W64 true 19 20 21 1;
    ICarry W64 true 21 22 21 1 ].
