(** CBOR (RFC 8949) in its shortest, definite-length form, independent of the model. *)
From Coq Require Import ZArith List.
Import ListNotations. Open Scope Z_scope.

Inductive item :=
| Uint (n : Z)
| Nint (n : Z)                       (* the number -1-n *)
| Bstr (b : list Z)
| Tstr (b : list Z)
| Arr (l : list item)
| Map (l : list (item * item))
| Tag (t : Z) (v : item)
| Simple (n : Z)                     (* 20 false, 21 true, 22 null *)
| Float (width bits : Z).

(** Base-256 digits, most significant first. *)
Definition be (k : nat) (n : Z) : list Z :=
  map (fun i => n / 256 ^ Z.of_nat (k - 1 - i) mod 256) (seq 0 k).

(** Initial byte and argument: major type in the top three bits, shortest argument. *)
Definition head (major n : Z) : list Z :=
  if n <? 24 then [32 * major + n]
  else if n <? 2 ^ 8 then (32 * major + 24) :: be 1 n
  else if n <? 2 ^ 16 then (32 * major + 25) :: be 2 n
  else if n <? 2 ^ 32 then (32 * major + 26) :: be 4 n
  else (32 * major + 27) :: be 8 n.

Fixpoint cbor (i : item) : list Z :=
  match i with
  | Uint n => head 0 n
  | Nint n => head 1 n
  | Bstr b => head 2 (Z.of_nat (length b)) ++ b
  | Tstr b => head 3 (Z.of_nat (length b)) ++ b
  | Arr l => head 4 (Z.of_nat (length l)) ++ flat_map cbor l
  | Map l => head 5 (Z.of_nat (length l)) ++ flat_map (fun '(k, v) => cbor k ++ cbor v) l
  | Tag t v => head 6 t ++ cbor v
  | Simple n => head 7 n
  | Float w n => (if w =? 2 then 249 else if w =? 4 then 250 else 251) :: be (Z.to_nat w) n
  end.

(** Numbers, lengths and bytes in range. *)
Fixpoint item_ok (i : item) : Prop :=
  match i with
  | Uint n | Nint n => 0 <= n < 2 ^ 64
  | Bstr b | Tstr b => Z.of_nat (length b) < 2 ^ 64 /\ forall x, In x b -> 0 <= x < 256
  | Arr l => Z.of_nat (length l) < 2 ^ 64 /\ fold_right (fun v P => item_ok v /\ P) True l
  | Map l => Z.of_nat (length l) < 2 ^ 64 /\ fold_right (fun '(k, v) P => item_ok k /\ item_ok v /\ P) True l
  | Tag t v => 0 <= t < 2 ^ 64 /\ item_ok v
  | Simple n => 0 <= n < 24
  | Float w n => (w = 2 \/ w = 4 \/ w = 8) /\ 0 <= n < 256 ^ w
  end.

(** Any well-formed encoding (RFC 8949, section 3), shortest or not, definite or indefinite length.
    [arg ai n a]: additional information [ai] followed by the bytes [a] gives the argument [n]. *)
Definition value256 (l : list Z) : Z := fold_left (fun v b => v * 256 + b) l 0.
Definition all_bytes (l : list Z) : Prop := forall b, In b l -> 0 <= b < 256.
Inductive arg : Z -> Z -> list Z -> Prop :=
| arg_small n : 0 <= n < 24 -> arg n n []
| arg_1 l : length l = 1%nat -> all_bytes l -> arg 24 (value256 l) l
| arg_2 l : length l = 2%nat -> all_bytes l -> arg 25 (value256 l) l
| arg_4 l : length l = 4%nat -> all_bytes l -> arg 26 (value256 l) l
| arg_8 l : length l = 8%nat -> all_bytes l -> arg 27 (value256 l) l.

(** Chunks of an indefinite-length string of major type [m], with the final break byte. *)
Inductive chunks (m : Z) : list Z -> list Z -> Prop :=
| ch_break : chunks m [] [255]
| ch_chunk ai a b bs l : arg ai (Z.of_nat (length b)) a -> all_bytes b -> chunks m bs l ->
    chunks m (b ++ bs) (32 * m + ai :: a ++ b ++ l).

Inductive enc : item -> list Z -> Prop :=
| e_uint ai n a : arg ai n a -> enc (Uint n) (ai :: a)
| e_nint ai n a : arg ai n a -> enc (Nint n) (32 + ai :: a)
| e_bstr ai a b : arg ai (Z.of_nat (length b)) a -> all_bytes b -> enc (Bstr b) (64 + ai :: a ++ b)
| e_bstr_indef b l : chunks 2 b l -> enc (Bstr b) (95 :: l)
| e_tstr ai a b : arg ai (Z.of_nat (length b)) a -> all_bytes b -> enc (Tstr b) (96 + ai :: a ++ b)
| e_tstr_indef b l : chunks 3 b l -> enc (Tstr b) (127 :: l)
| e_arr ai a l d : arg ai (Z.of_nat (length l)) a -> encs l d -> enc (Arr l) (128 + ai :: a ++ d)
| e_arr_indef l d : encs l d -> enc (Arr l) (159 :: d ++ [255])
| e_map ai a l d : arg ai (Z.of_nat (length l)) a -> encp l d -> enc (Map l) (160 + ai :: a ++ d)
| e_map_indef l d : encp l d -> enc (Map l) (191 :: d ++ [255])
| e_tag ai t a v d : arg ai t a -> enc v d -> enc (Tag t v) (192 + ai :: a ++ d)
| e_simple n : 0 <= n < 24 -> enc (Simple n) [224 + n]
| e_simple1 n : 32 <= n < 256 -> enc (Simple n) [248; n]
| e_float2 l : length l = 2%nat -> all_bytes l -> enc (Float 2 (value256 l)) (249 :: l)
| e_float4 l : length l = 4%nat -> all_bytes l -> enc (Float 4 (value256 l)) (250 :: l)
| e_float8 l : length l = 8%nat -> all_bytes l -> enc (Float 8 (value256 l)) (251 :: l)
with encs : list item -> list Z -> Prop :=
| es_nil : encs [] []
| es_cons v l d d' : enc v d -> encs l d' -> encs (v :: l) (d ++ d')
with encp : list (item * item) -> list Z -> Prop :=
| ep_nil : encp [] []
| ep_cons k v l d1 d2 d' : enc k d1 -> enc v d2 -> encp l d' -> encp ((k, v) :: l) (d1 ++ d2 ++ d').

(** Levels of nesting as fxamacker/cbor counts them: arrays and maps, and tags directly inside a tag. *)
Fixpoint nesting (i : item) : Z :=
  match i with
  | Arr l => 1 + fold_right (fun v m => Z.max (nesting v) m) 0 l
  | Map l => 1 + fold_right (fun '(k, v) m => Z.max (Z.max (nesting k) (nesting v)) m) 0 l
  | Tag _ v => nesting v + match v with Tag _ _ => 1 | _ => 0 end
  | _ => 0
  end.
(** The largest number of elements of an array or pairs of a map. *)
Fixpoint widest (i : item) : Z :=
  match i with
  | Arr l => fold_right (fun v m => Z.max (widest v) m) (Z.of_nat (length l)) l
  | Map l => fold_right (fun '(k, v) m => Z.max (Z.max (widest k) (widest v)) m) (Z.of_nat (length l)) l
  | Tag _ v => widest v
  | _ => 0
  end.
(** Its default limits. *)
Definition readable (i : item) : Prop := nesting i <= 32 /\ widest i <= 131072.
