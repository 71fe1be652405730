(** Decimal numbers and the table printed by [cardano-cli query utxo], independent of the model. *)
From Coq Require Import ZArith List.
From Verif.Spec Require Import FieldsSpec.
Import ListNotations. Open Scope Z_scope.

(** ASCII digits without superfluous zeros. *)
Definition value10 (s : list Z) : Z := fold_left (fun a c => 10 * a + (c - 48)) s 0.
Definition decimal_of (s : list Z) (n : Z) : Prop :=
  s <> [] /\ (forall c, In c s -> 48 <= c <= 57) /\ value10 s = n /\ (nth 0 s 0 = 48 -> s = [48]).

(** A row: hash, index, amount and anything else, separated by white space. *)
Definition row (h : list Z) (ix amount : Z) (s : list Z) : Prop :=
  exists i a more, has_fields s (h :: i :: a :: more) /\ decimal_of i ix /\ decimal_of a amount.
(** White space of ASCII but the line feed, and visible ASCII characters *)
Definition blank (c : Z) : Prop := In c [32; 9; 11; 12; 13].
Definition blanks (s : list Z) : Prop := s <> [] /\ forall c, In c s -> blank c.
Definition word (s : list Z) : Prop := s <> [] /\ forall c, In c s -> 33 <= c <= 126.

(** The text of a signed 64-bit number: digits (zeros in front allowed) after an optional sign. *)
Definition digits (s : list Z) : Prop := s <> [] /\ forall c, In c s -> 48 <= c <= 57.
Definition int64_text (s : list Z) (n : Z) : Prop :=
  (exists t, digits t /\ ((s = t /\ n = value10 t) \/ (s = 43 :: t /\ n = value10 t) \/ (s = 45 :: t /\ n = - value10 t))) /\ - 2 ^ 63 <= n < 2 ^ 63.
