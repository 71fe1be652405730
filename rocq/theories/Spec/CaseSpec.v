(** What is needed of Unicode's simple case mappings (UnicodeData.txt, fields 12 and 13), independent of the model. *)
From Coq Require Import ZArith List Bool.
From Verif.Spec Require Import Utf8Spec Bech32Spec BchSpec.
Import ListNotations. Open Scope Z_scope.

(** U+212A KELVIN SIGN has the lower-case form k and U+0130 (capital I with dot) the lower-case form i; no other character outside
    ASCII has a lower-case form in ASCII. The KELVIN SIGN is its own upper-case form. *)
Definition case_tables (lo up : Z -> Z) : Prop :=
  (forall r, scalar r -> scalar (lo r) /\ scalar (up r)) /\
  (forall r, 0 <= r < 128 -> lo r = (if (65 <=? r) && (r <=? 90) then r + 32 else r) /\ up r = (if (97 <=? r) && (r <=? 122) then r - 32 else r)) /\
  (forall r, scalar r -> 128 <= r -> lo r < 128 -> r = 0x212A \/ (r = 0x130 /\ lo r = 105)) /\
  lo 0x212A = 107 /\ up 0x212A = 0x212A.

(** [kelvin s t]: [s] is [t] with some of its letters K replaced by the KELVIN SIGN (in UTF-8). *)
Inductive kelvin : list Z -> list Z -> Prop :=
| k_nil : kelvin [] []
| k_same c s t : kelvin s t -> kelvin (c :: s) (c :: t)
| k_sign s t : kelvin s t -> kelvin (0xE2 :: 0x84 :: 0xAA :: s) (75 :: t).

Definition no_lower (s : list Z) : Prop := forall c, In c s -> ~ is_lower c.
(** The checksum condition of BIP-173 for a prefix and the characters after the separator, whatever their number. *)
Definition checksum_holds (hrp chars : list Z) : Prop := exists values, symbols values /\ map fold_case chars = map symbol_char values /\
  residue (1 :: hrp_symbols (map fold_case hrp) ++ values) = [0; 0; 0; 0; 0; 1].
