(** Metadata values: what they mean, and the freedom of the Go runtime to reorder map entries. *)
From Coq Require Import ZArith List Permutation.
From Verif.Model Require Import Tx.
From Verif.Spec Require Import CborSpec.
Import ListNotations. Open Scope Z_scope.

(** IEEE 754 patterns by magnitude: below the infinity a number, written as it is; the infinity and what is above it, the NaNs, are
    written in two bytes. *)
Definition float_item (double : bool) (bits : Z) : item :=
  let sign := if double then 2 ^ 63 else 2 ^ 31 in
  let infinity := if double then 2047 * 2 ^ 52 else 255 * 2 ^ 23 in
  let magnitude := bits mod sign in
  if magnitude <? infinity then Float (if double then 8 else 4) bits
  else if magnitude =? infinity then Float 2 (if bits <? sign then 31 * 2 ^ 10 else 2 ^ 15 + 31 * 2 ^ 10)
  else Float 2 (63 * 2 ^ 9).
Fixpoint md_item (m : md) : item :=
  match m with
  | MdUint n => Uint n
  | MdNint n => Nint n
  | MdBytes b => Bstr b
  | MdText s => Tstr s
  | MdBool b => Simple (if b then 21 else 20)
  | MdNull | MdBad => Simple 22
  | MdArray l => Arr (map md_item l)
  | MdMap l | MdStruct l => Map (map (fun '(k, v) => (md_item k, md_item v)) l)
  | MdTag t v => Tag t (md_item v)
  | MdFloat double bits => float_item double bits
  end.

(** A value cbor.Marshal accepts, with Go's number ranges. *)
Fixpoint md_ok (m : md) : Prop :=
  match m with
  | MdUint n | MdNint n => 0 <= n < 2 ^ 64
  | MdBytes b | MdText b => Z.of_nat (length b) < 2 ^ 64 /\ forall x, In x b -> 0 <= x < 256
  | MdBool _ | MdNull => True
  | MdArray l => Z.of_nat (length l) < 2 ^ 64 /\ fold_right (fun v P => md_ok v /\ P) True l
  | MdMap l | MdStruct l => Z.of_nat (length l) < 2 ^ 64 /\ fold_right (fun '(k, v) P => md_ok k /\ md_ok v /\ P) True l
  | MdTag t v => 0 <= t < 2 ^ 64 /\ md_ok v
  | MdFloat double bits => 0 <= bits < 2 ^ (if double then 64 else 32)
  | MdBad => False
  end.

(** The same value with map entries, at any depth, listed in another order; the fields of a struct stay where they are. *)
Inductive md_perm : md -> md -> Prop :=
| mp_refl m : md_perm m m
| mp_arr l l' : Forall2 md_perm l l' -> md_perm (MdArray l) (MdArray l')
| mp_map l l' l'' : Forall2 (fun p q => md_perm (fst p) (fst q) /\ md_perm (snd p) (snd q)) l l' -> Permutation l' l'' ->
    md_perm (MdMap l) (MdMap l'')
| mp_struct l l' : Forall2 (fun p q => md_perm (fst p) (fst q) /\ md_perm (snd p) (snd q)) l l' -> md_perm (MdStruct l) (MdStruct l')
| mp_tag t v v' : md_perm v v' -> md_perm (MdTag t v) (MdTag t v').
Definition runtime_order `{MapOrder} : Prop := forall n m, md_perm m (map_order n m).

(** No map with two or more entries: the order cannot show. *)
Fixpoint order_free (m : md) : Prop :=
  match m with
  | MdArray l => fold_right (fun v P => order_free v /\ P) True l
  | MdMap [] => True
  | MdMap [(k, v)] => order_free k /\ order_free v
  | MdMap _ => False
  | MdStruct l => fold_right (fun '(k, v) P => order_free k /\ order_free v /\ P) True l
  | MdTag _ v => order_free v
  | _ => True
  end.
(** Every map has keys with different encodings. *)
Fixpoint distinct_keys (m : md) : Prop :=
  match m with
  | MdArray l => fold_right (fun v P => distinct_keys v /\ P) True l
  | MdMap l => NoDup (map (fun p => md_item (fst p)) l) /\ fold_right (fun '(k, v) P => distinct_keys k /\ distinct_keys v /\ P) True l
  | MdStruct l => fold_right (fun '(k, v) P => distinct_keys k /\ distinct_keys v /\ P) True l
  | MdTag _ v => distinct_keys v
  | _ => True
  end.
Definition meta_free (m : option md) : Prop := match m with None => True | Some m => order_free m end.
Definition meta_ok (m : option md) : Prop := match m with None => True | Some m => md_ok m end.
