(** BIP-39: mnemonic sentences, independent of the model. Bits are lists of 0 and 1, most significant first. *)
From Coq Require Import ZArith List.
Import ListNotations. Open Scope Z_scope.

Definition bits (n : nat) (v : Z) : list Z := map (fun i => v / 2 ^ Z.of_nat i mod 2) (rev (seq 0 n)).
(** Entropy of 128 to 256 bits in steps of 32; the checksum is the first (bits / 32) bits of its SHA-256; together they are cut into
    groups of 11 bits, each the number of a word. *)
Definition entropy_length (n : nat) : Prop := n = 16%nat \/ n = 20%nat \/ n = 24%nat \/ n = 28%nat \/ n = 32%nat.
Definition sentence (sha : list Z -> list Z) (ent : list Z) (numbers : list Z) : Prop :=
  entropy_length (length ent) /\ Forall (fun b => 0 <= b < 256) ent /\ Forall (fun i => 0 <= i < 2048) numbers /\
  flat_map (bits 11) numbers = flat_map (bits 8) ent ++ firstn (length ent / 4) (flat_map (bits 8) (sha ent)).

(** A word list: 2048 different words of visible ASCII characters. *)
Definition word_list (words : list (list Z)) : Prop :=
  length words = 2048%nat /\ NoDup words /\ Forall (fun w => w <> [] /\ forall c, In c w -> 33 <= c <= 126) words.
Definition spelled (words : list (list Z)) (numbers : list Z) : list (list Z) := map (fun i => nth (Z.to_nat i) words []) numbers.
(** Words separated by single spaces *)
Fixpoint joined (l : list (list Z)) : list Z :=
  match l with [] => [] | [w] => w | w :: r => w ++ 32 :: joined r end.
