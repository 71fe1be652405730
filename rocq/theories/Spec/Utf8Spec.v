(** UTF-8 (RFC 3629), independent of the model. *)
From Coq Require Import ZArith List.
Import ListNotations. Open Scope Z_scope.

Definition scalar (c : Z) : Prop := 0 <= c < 55296 \/ 57344 <= c < 1114112.
(** RFC 3629 *)
Inductive utf8 : Z -> list Z -> Prop :=
| u_1 c : 0 <= c < 128 -> utf8 c [c]
| u_2 a b : 0 <= a < 32 -> 0 <= b < 64 -> 128 <= a * 64 + b -> utf8 (a * 64 + b) [192 + a; 128 + b]
| u_3 a b c : 0 <= a < 16 -> 0 <= b < 64 -> 0 <= c < 64 -> 2048 <= (a * 64 + b) * 64 + c -> utf8 ((a * 64 + b) * 64 + c) [224 + a; 128 + b; 128 + c]
| u_4 a b c d : 0 <= a < 8 -> 0 <= b < 64 -> 0 <= c < 64 -> 0 <= d < 64 -> 65536 <= ((a * 64 + b) * 64 + c) * 64 + d ->
    utf8 (((a * 64 + b) * 64 + c) * 64 + d) [240 + a; 128 + b; 128 + c; 128 + d].
(** A text: the encodings of scalar values one after the other. *)
Inductive utf8_text : list Z -> Prop :=
| ut_nil : utf8_text []
| ut_char c b r : scalar c -> utf8 c b -> utf8_text r -> utf8_text (b ++ r).
