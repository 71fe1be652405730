(** The field with 2^255 - 19 elements, the curve -x^2 + y^2 = 1 + d x^2 y^2 over it (RFC 8032, section 5.1),
    its addition law, scalar multiples, the base point and the point encoding. Independent of the model. *)
From Coq Require Import ZArith List Bool Eqdep_dec Lia.
Import ListNotations. Open Scope Z_scope.

Definition p25519 : Z := 2 ^ 255 - 19.

(** Field elements are the integers 0 <= z < p. *)
Record F : Type := mkF { fval : Z; fval_ok : (fval mod p25519 =? fval) = true }.
Lemma of_Z_ok z : ((z mod p25519) mod p25519 =? z mod p25519) = true.
Proof. apply Z.eqb_eq. apply Z.mod_mod. discriminate. Qed.
Definition of_Z (z : Z) : F := mkF (z mod p25519) (of_Z_ok z).
Definition fadd (a b : F) : F := of_Z (fval a + fval b).
Definition fsub (a b : F) : F := of_Z (fval a - fval b).
Definition fmul (a b : F) : F := of_Z (fval a * fval b).
Definition fopp (a : F) : F := of_Z (- fval a).
Definition f0 : F := of_Z 0.
Definition f1 : F := of_Z 1.
Fixpoint fpow (a : F) (n : nat) : F := match n with O => f1 | S k => fmul a (fpow a k) end.
Fixpoint fpow_pos (a : F) (e : positive) : F :=
  match e with xH => a | xO e' => let h := fpow_pos a e' in fmul h h | xI e' => let h := fpow_pos a e' in fmul a (fmul h h) end.
(** The inverse (0 for 0), by Fermat's little theorem. *)
Definition finv (a : F) : F := fpow_pos a (Z.to_pos (p25519 - 2)).
Definition fdiv (a b : F) : F := fmul a (finv b).

Declare Scope F_scope. Delimit Scope F_scope with F. Bind Scope F_scope with F.
Infix "+" := fadd : F_scope. Infix "-" := fsub : F_scope. Infix "*" := fmul : F_scope. Infix "/" := fdiv : F_scope.
Notation "- x" := (fopp x) : F_scope. Notation "0" := f0 : F_scope. Notation "1" := f1 : F_scope.

(** d = -121665/121666 *)
Definition fd : F := (- of_Z 121665 / of_Z 121666)%F.

Record point : Type := mkP { px : F; py : F }.
Definition on_curve (P : point) : Prop := (py P * py P - px P * px P = 1 + fd * (px P * px P) * (py P * py P))%F.
Definition pzero : point := mkP 0%F 1%F.
Definition padd (P Q : point) : point :=
  let '(mkP x1 y1) := P in let '(mkP x2 y2) := Q in
  (mkP ((x1 * y2 + x2 * y1) / (1 + fd * x1 * x2 * y1 * y2)) ((y1 * y2 + x1 * x2) / (1 - fd * x1 * x2 * y1 * y2)))%F.
Definition pneg (P : point) : point := mkP (- px P)%F (py P).

(** n P = P + ... + P; negative multiples through the negative point. *)
Fixpoint nmul (n : nat) (P : point) : point := match n with O => pzero | S k => padd P (nmul k P) end.
Definition zmul (n : Z) (P : point) : point := if n <? 0 then nmul (Z.to_nat (- n)) (pneg P) else nmul (Z.to_nat n) P.

(** The base point: y = 4/5, x even ("positive"). *)
Definition Bx : Z := 15112221349535400772501151409588531511454012693041857206046113283949847762202.
Definition By : Z := 46316835694926478169428394003475163141307993866256225615783033603165251855960.
Definition base_point : point := mkP (of_Z Bx) (of_Z By).
(** The order of the base point. *)
Definition ell : Z := 2 ^ 252 + 27742317777372353535851937790883648493.

(** Little-endian numbers and the encoding of a point: y, with the parity of x in the top bit. *)
Fixpoint le_value (l : list Z) : Z := match l with [] => 0 | b :: r => b + 256 * le_value r end.
Definition le32 (n : Z) : list Z := map (fun i => (n / 256 ^ Z.of_nat i) mod 256) (seq 0 32).
Definition encode_point (P : point) : list Z := le32 (fval (py P) + 2 ^ 255 * (fval (px P) mod 2)).
