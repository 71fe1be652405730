(** The text format of BIP-173, written from its description and independent of the model: regrouping of bits, the
    checksum as a BCH code over GF(32), and the layout of a text. *)
From Coq Require Import ZArith List Bool.
From Verif.Spec Require Import Bech32Spec.
Import ListNotations. Open Scope Z_scope.

(** GF(32) = GF(2)[x] / (x^5 + x^3 + 1); an element is the number whose bits are the coefficients. *)
Definition gf_double (a : Z) : Z := if 2 * a <? 32 then 2 * a else Z.lxor (2 * a) 41.
Definition gf_mul (a b : Z) : Z :=
  fold_right (fun i r => if Z.testbit a (Z.of_nat i) then Z.lxor (Nat.iter i gf_double b) r else r) 0 [0; 1; 2; 3; 4]%nat.

(** The generator g(x) = x^6 + {29}x^5 + {22}x^4 + {20}x^3 + {21}x^2 + {29}x + {18}, without its leading term. *)
Definition gen_poly : list Z := [29; 22; 20; 21; 29; 18].

Fixpoint poly_add (a b : list Z) : list Z :=
  match a, b with x :: a', y :: b' => Z.lxor x y :: poly_add a' b' | _, _ => [] end.
(** The remainder modulo g of a polynomial over GF(32), given by its coefficients from the highest down (Horner's
    scheme: r * x + c, with x^6 replaced). *)
Definition residue_step (r : list Z) (c : Z) : list Z :=
  match r with
  | t :: low => poly_add (low ++ [c]) (map (gf_mul t) gen_poly)
  | [] => []
  end.
Definition residue (p : list Z) : list Z := fold_left residue_step p [0; 0; 0; 0; 0; 0].

(** The symbols by which a prefix enters the checksum. *)
Definition hrp_symbols (h : list Z) : list Z := map (fun c => c / 32) h ++ [0] ++ map (fun c => c mod 32) h.

(** Bits of a number, the most significant first. *)
Definition bits (w : nat) (v : Z) : list bool := map (fun i => Z.testbit v (Z.of_nat i)) (rev (seq 0 w)).
Definition all_bits (w : nat) (l : list Z) : list bool := flat_map (bits w) l.
(** [data] cut into groups of five bits, the last one filled with zeros. *)
Definition regrouped (data groups : list Z) : Prop :=
  exists k, (k < 5)%nat /\ all_bits 5 groups = all_bits 8 data ++ repeat false k.

Definition symbols (l : list Z) : Prop := forall d, In d l -> 0 <= d < 32.
Definition symbol_char (d : Z) : Z := nth (Z.to_nat d) alphabet 0.

(** [s] is a BIP-173 text (of any length) for the prefix [hrp] and the bytes [data]. *)
Definition bech32_text (s hrp data : list Z) : Prop :=
  valid_hrp hrp /\ byte_string data /\ single_case s /\ firstn (length hrp) s = hrp /\
  exists groups check,
    symbols groups /\ regrouped data groups /\ symbols check /\ length check = 6%nat /\
    residue (1 :: hrp_symbols (map fold_case hrp) ++ groups ++ check) = [0; 0; 0; 0; 0; 1] /\
    map fold_case s = map fold_case hrp ++ 49 :: map symbol_char (groups ++ check).

(** Positions at which two texts differ, case aside. *)
Definition differences (s s' : list Z) : list nat :=
  filter (fun j => negb (fold_case (nth j s 0) =? fold_case (nth j s' 0))) (seq 0 (length s)).
(** The number of symbols a set of substitutions can change: two for each character of the prefix (of length n), one
    for each character of the data part. *)
Definition cost (n : nat) (l : list nat) : nat := fold_right (fun j c => ((if j <? n then 2 else 1) + c)%nat) 0%nat l.
