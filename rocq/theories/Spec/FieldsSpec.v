(** Words separated by white space, independent of the model. *)
From Coq Require Import ZArith List.
From Verif.Spec Require Import Utf8Spec.
Import ListNotations. Open Scope Z_scope.

(** The code points with the Unicode property White_Space *)
Definition white (c : Z) : Prop := 9 <= c <= 13 \/ In c [32; 133; 160; 5760] \/ 8192 <= c <= 8202 \/ In c [8232; 8233; 8239; 8287; 12288].
(** The text starts with a white space character. *)
Definition opens (s : list Z) : Prop := exists c b r, white c /\ utf8 c b /\ s = b ++ r.
(** White space only *)
Inductive gap : list Z -> Prop :=
| gap_nil : gap []
| gap_cons c b g : white c -> utf8 c b -> gap g -> gap (b ++ g).
(** A non-empty stretch of bytes, valid UTF-8 or not, without a white space character in it *)
Definition clean (w : list Z) : Prop := w <> [] /\ forall a r, w = a ++ r -> ~ opens r.
(** The words of a text: white space, a word, white space (unless the text ends), a word, and so on *)
Inductive has_fields : list Z -> list (list Z) -> Prop :=
| hf_none g : gap g -> has_fields g []
| hf_word g w t l : gap g -> clean w -> has_fields t l -> t = [] \/ opens t -> has_fields (g ++ w ++ t) (w :: l).
