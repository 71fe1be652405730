(** BIP-173 vocabulary, independent of the model. A string is a list of byte values. *)
From Coq Require Import ZArith List Bool.
Import ListNotations. Open Scope Z_scope.

(** The 32 characters of the data part, lower case: "qpzry9x8gf2tvdw0s3jn54khce6mua7l". *)
Definition alphabet : list Z :=
  [113;112;122;114;121;57;120;56;103;102;50;116;118;100;119;48;
   115;51;106;110;53;52;107;104;99;101;54;109;117;97;55;108].

Definition is_upper (c : Z) : Prop := 65 <= c <= 90.
Definition is_lower (c : Z) : Prop := 97 <= c <= 122.
Definition fold_case (c : Z) : Z := if (65 <=? c) && (c <=? 90) then c + 32 else c.

(** A string that does not mix cases. *)
Definition single_case (s : list Z) : Prop :=
  (forall c, In c s -> ~ is_upper c) \/ (forall c, In c s -> ~ is_lower c).

(** A human-readable part BIP-173 allows (without its length limit). *)
Definition valid_hrp (h : list Z) : Prop :=
  h <> [] /\ (forall c, In c h -> 33 <= c <= 126) /\ single_case h.

Definition byte_string (d : list Z) : Prop := forall c, In c d -> 0 <= c <= 255.
Definition ascii_string (s : list Z) : Prop := forall c, In c s -> c < 128.

(** A character of the data part, in either case. *)
Definition data_char (c : Z) : Prop := In (fold_case c) alphabet.

Definition replace_at (i : nat) (c : Z) (s : list Z) : list Z := firstn i s ++ c :: skipn (S i) s.
