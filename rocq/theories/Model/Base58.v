(** Model of github.com/btcsuite/btcutil v1.0.2 base58 (Encode, Decode), used by address.go:38 and
    byron.go:36. The library is not in /repo; this follows its source: the big-integer value of the
    input in base 256 (resp. 58), repeatedly divided by 58 (resp. 256), with one leading '1' per
    leading zero byte. *)
From Verif.Model Require Import Base Bech32.

Definition b58_alphabet : bytes := str "123456789ABCDEFGHJKLMNPQRSTUVWXYZabcdefghijkmnopqrstuvwxyz".

(** math/big SetBytes: big-endian value. *)
Definition be_value (base : Z) (l : list Z) : Z := fold_left (fun acc d => acc * base + d) l 0.

(** Most significant digit first, no leading zero digit; empty for 0. math/big Bytes, and the DivMod
    loop of base58.Encode followed by the reversal. [fuel] bounds the number of digits. *)
Fixpoint digits_aux (fuel : nat) (base x : Z) (acc : list Z) : list Z :=
  match fuel with
  | O => acc
  | S f => if x <=? 0 then acc else digits_aux f base (x / base) (x mod base :: acc)
  end.
Definition digits (base x : Z) : list Z := digits_aux (Z.to_nat (Z.log2 x + 1)) base x [].

(** Number of leading elements equal to [z]. *)
Fixpoint count_leading (z : Z) (l : list Z) : nat :=
  match l with x :: r => if x =? z then S (count_leading z r) else O | [] => O end.

(** base58.Encode *)
Definition b58_encode (b : bytes) : bytes :=
  repeat 49 (count_leading 0 b) ++
  map (fun d => nth (Z.to_nat d) b58_alphabet 0) (digits 58 (be_value 256 b)).

Fixpoint b58_values (s : bytes) : option (list Z) :=
  match s with
  | [] => Some []
  | c :: r => match index_of b58_alphabet c, b58_values r with
              | Some d, Some ds => Some (d :: ds)
              | _, _ => None
              end
  end.

(** base58.Decode: the empty slice on an invalid character. *)
Definition b58_decode (s : bytes) : bytes :=
  match b58_values s with
  | None => []
  | Some ds => repeat 0 (count_leading 49 s) ++ digits 256 (be_value 58 ds)
  end.
