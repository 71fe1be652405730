(** Model of the Go standard library's unicode/utf8. *)
From Verif.Model Require Import Base.

Definition RuneError : Z := 65533.
Definition in_range (lo hi c : Z) : bool := (lo <=? c) && (c <=? hi).
(** utf8.DecodeRune: the rune and the number of bytes taken *)
Definition decode_rune (s : bytes) : Z * nat :=
  let bad := (RuneError, 1%nat) in
  match s with
  | [] => (RuneError, 0%nat)
  | c :: r =>
      if c <? 128 then (c, 1%nat)
      else if in_range 194 223 c then
        match r with
        | c1 :: _ => if in_range 128 191 c1 then ((c - 192) * 64 + (c1 - 128), 2%nat) else bad
        | _ => bad
        end
      else if in_range 224 239 c then
        match r with
        | c1 :: c2 :: _ =>
            if in_range (if c =? 224 then 160 else 128) (if c =? 237 then 159 else 191) c1 && in_range 128 191 c2
            then ((c - 224) * 4096 + (c1 - 128) * 64 + (c2 - 128), 3%nat) else bad
        | _ => bad
        end
      else if in_range 240 244 c then
        match r with
        | c1 :: c2 :: c3 :: _ =>
            if in_range (if c =? 240 then 144 else 128) (if c =? 244 then 143 else 191) c1 && in_range 128 191 c2 && in_range 128 191 c3
            then ((c - 240) * 262144 + (c1 - 128) * 4096 + (c2 - 128) * 64 + (c3 - 128), 4%nat) else bad
        | _ => bad
        end
      else bad
  end.
(** utf8.EncodeRune on the runes that occur (never a surrogate, never above 0x10FFFF) *)
Definition encode_rune (r : Z) : bytes :=
  if r <? 128 then [r]
  else if r <? 2048 then [192 + r / 64; 128 + r mod 64]
  else if r <? 65536 then [224 + r / 4096; 128 + r / 64 mod 64; 128 + r mod 64]
  else [240 + r / 262144; 128 + r / 4096 mod 64; 128 + r / 64 mod 64; 128 + r mod 64].
(** utf8.Valid *)
Fixpoint utf8_valid_aux (fuel : nat) (s : bytes) : bool :=
  match s with
  | [] => true
  | _ => match fuel with
         | O => false
         | S f => let '(r, size) := decode_rune s in
                  if (r =? RuneError) && (size =? 1)%nat then false else utf8_valid_aux f (skipn size s)
         end
  end.
Definition utf8_valid (s : bytes) : bool := utf8_valid_aux (length s) s.
