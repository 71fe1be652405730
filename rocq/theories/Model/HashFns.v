(** The hash functions that package bip32, package crypto and package tx call. They are not code of the repository: SHA-256,
    SHA-512 (FIPS 180-4), HMAC (RFC 2104) and PBKDF2 (RFC 8018) come from Go's crypto/sha256, crypto/sha512, crypto/hmac and
    golang.org/x/crypto/pbkdf2, BLAKE2b (RFC 7693) from golang.org/x/crypto/blake2b. Written from these documents. *)
From Coq Require Import ZArith List.
From Verif.Model Require Import Base Bip32.
Import ListNotations. Open Scope Z_scope.

(** ** Words *)
Definition mask64 : Z := 0xffffffffffffffff.
Definition mask32 : Z := 0xffffffff.
(** Rotation to the right by [n] of a word of [w] bits. *)
Definition rotr (w mask n x : Z) : Z := Z.lor (Z.shiftr x n) (Z.land (Z.shiftl x (w - n)) mask).
(** [n] bytes of a word, the most significant first; and the least significant first. *)
Fixpoint be_bytes (n : nat) (x : Z) : bytes :=
  match n with O => [] | S n => be_bytes n (Z.shiftr x 8) ++ [Z.land x 255] end.
Fixpoint le_bytes (n : nat) (x : Z) : bytes :=
  match n with O => [] | S n => Z.land x 255 :: le_bytes n (Z.shiftr x 8) end.
Definition be_word (l : bytes) : Z := fold_left (fun a b => Z.lor (Z.shiftl a 8) b) l 0.
Definition le_word (l : bytes) : Z := be_word (rev l).
(** [l] cut into [k] pieces of [n] elements. *)
Fixpoint pieces (k n : nat) (l : bytes) : list bytes :=
  match k with O => [] | S k => firstn n l :: pieces k n (skipn n l) end.

(** ** SHA-2 (FIPS 180-4), with the parameters of the two functions *)
Record sha2 := {
  s2_bytes : nat;                       (* bytes per word *)
  s2_mask : Z;
  s2_S0 : Z -> Z; s2_S1 : Z -> Z;       (* the capital sigmas of section 4.1 *)
  s2_s0 : Z -> Z; s2_s1 : Z -> Z;       (* the small sigmas *)
  s2_K : list Z
}.
Definition state8 : Type := Z * Z * Z * Z * Z * Z * Z * Z.

Definition xor3 (a b c : Z) : Z := Z.lxor a (Z.lxor b c).
Definition ch (x y z : Z) : Z := Z.lxor z (Z.land x (Z.lxor y z)).
Definition maj (x y z : Z) : Z := Z.lxor (Z.land x y) (Z.land z (Z.lxor x y)).

(** One step of 6.2.2/6.4.2, with the message schedule in a window of sixteen words. *)
Definition sha2_step (p : sha2) (st : state8 * list Z) (k : Z) : state8 * list Z :=
  let '((a, b, c, d, e, f, g, h), win) := st in
  let w0 := hd 0 win in
  let t1 := h + s2_S1 p e + ch e f g + k + w0 in
  let t2 := s2_S0 p a + maj a b c in
  let w16 := Z.land (s2_s1 p (nth 14 win 0) + nth 9 win 0 + s2_s0 p (nth 1 win 0) + w0) (s2_mask p) in
  ((Z.land (t1 + t2) (s2_mask p), a, b, c, Z.land (d + t1) (s2_mask p), e, f, g), tl win ++ [w16]).
Definition add8 (mask : Z) (x y : state8) : state8 :=
  let '(a, b, c, d, e, f, g, h) := x in let '(a', b', c', d', e', f', g', h') := y in
  let s u v := Z.land (u + v) mask in (s a a', s b b', s c c', s d d', s e e', s f f', s g g', s h h').
Definition sha2_block (p : sha2) (st : state8) (block : bytes) : state8 :=
  let win := map be_word (pieces 16 (s2_bytes p) block) in
  add8 (s2_mask p) st (fst (fold_left (sha2_step p) (s2_K p) (st, win))).
(** Padding (5.1): the bit 1, zeros, the length in bits in two words. *)
Definition sha2_pad (p : sha2) (len : Z) : bytes :=
  let b := Z.of_nat (s2_bytes p) in
  let zeros := (14 * b - 1 - len) mod (16 * b) in
  128 :: repeat 0 (Z.to_nat zeros) ++ be_bytes (2 * s2_bytes p) (8 * len).
Definition bytes_of_state (n : nat) (st : state8) : bytes :=
  let '(a, b, c, d, e, f, g, h) := st in flat_map (be_bytes n) [a; b; c; d; e; f; g; h].
(** The message [m] after [done] bytes already absorbed into [st] (zero for a plain hash). *)
Definition sha2_from (p : sha2) (st : state8) (done : Z) (m : bytes) : bytes :=
  let padded := m ++ sha2_pad p (done + Z.of_nat (length m)) in
  let n := (16 * s2_bytes p)%nat in
  bytes_of_state (s2_bytes p) (fold_left (sha2_block p) (pieces (length padded / n) n padded) st).

Definition K512 : list Z :=
  [0x428a2f98d728ae22; 0x7137449123ef65cd; 0xb5c0fbcfec4d3b2f; 0xe9b5dba58189dbbc;
   0x3956c25bf348b538; 0x59f111f1b605d019; 0x923f82a4af194f9b; 0xab1c5ed5da6d8118;
   0xd807aa98a3030242; 0x12835b0145706fbe; 0x243185be4ee4b28c; 0x550c7dc3d5ffb4e2;
   0x72be5d74f27b896f; 0x80deb1fe3b1696b1; 0x9bdc06a725c71235; 0xc19bf174cf692694;
   0xe49b69c19ef14ad2; 0xefbe4786384f25e3; 0x0fc19dc68b8cd5b5; 0x240ca1cc77ac9c65;
   0x2de92c6f592b0275; 0x4a7484aa6ea6e483; 0x5cb0a9dcbd41fbd4; 0x76f988da831153b5;
   0x983e5152ee66dfab; 0xa831c66d2db43210; 0xb00327c898fb213f; 0xbf597fc7beef0ee4;
   0xc6e00bf33da88fc2; 0xd5a79147930aa725; 0x06ca6351e003826f; 0x142929670a0e6e70;
   0x27b70a8546d22ffc; 0x2e1b21385c26c926; 0x4d2c6dfc5ac42aed; 0x53380d139d95b3df;
   0x650a73548baf63de; 0x766a0abb3c77b2a8; 0x81c2c92e47edaee6; 0x92722c851482353b;
   0xa2bfe8a14cf10364; 0xa81a664bbc423001; 0xc24b8b70d0f89791; 0xc76c51a30654be30;
   0xd192e819d6ef5218; 0xd69906245565a910; 0xf40e35855771202a; 0x106aa07032bbd1b8;
   0x19a4c116b8d2d0c8; 0x1e376c085141ab53; 0x2748774cdf8eeb99; 0x34b0bcb5e19b48a8;
   0x391c0cb3c5c95a63; 0x4ed8aa4ae3418acb; 0x5b9cca4f7763e373; 0x682e6ff3d6b2b8a3;
   0x748f82ee5defb2fc; 0x78a5636f43172f60; 0x84c87814a1f0ab72; 0x8cc702081a6439ec;
   0x90befffa23631e28; 0xa4506cebde82bde9; 0xbef9a3f7b2c67915; 0xc67178f2e372532b;
   0xca273eceea26619c; 0xd186b8c721c0c207; 0xeada7dd6cde0eb1e; 0xf57d4f7fee6ed178;
   0x06f067aa72176fba; 0x0a637dc5a2c898a6; 0x113f9804bef90dae; 0x1b710b35131c471b;
   0x28db77f523047d84; 0x32caab7b40c72493; 0x3c9ebe0a15c9bebc; 0x431d67c49c100d4c;
   0x4cc5d4becb3e42b6; 0x597f299cfc657e2a; 0x5fcb6fab3ad6faec; 0x6c44198c4a475817].
Definition sha512_params : sha2 := {|
  s2_bytes := 8; s2_mask := mask64;
  s2_S0 := fun x => xor3 (rotr 64 mask64 28 x) (rotr 64 mask64 34 x) (rotr 64 mask64 39 x);
  s2_S1 := fun x => xor3 (rotr 64 mask64 14 x) (rotr 64 mask64 18 x) (rotr 64 mask64 41 x);
  s2_s0 := fun x => xor3 (rotr 64 mask64 1 x) (rotr 64 mask64 8 x) (Z.shiftr x 7);
  s2_s1 := fun x => xor3 (rotr 64 mask64 19 x) (rotr 64 mask64 61 x) (Z.shiftr x 6);
  s2_K := K512 |}.
Definition sha512_init : state8 :=
  (0x6a09e667f3bcc908, 0xbb67ae8584caa73b, 0x3c6ef372fe94f82b, 0xa54ff53a5f1d36f1,
   0x510e527fade682d1, 0x9b05688c2b3e6c1f, 0x1f83d9abfb41bd6b, 0x5be0cd19137e2179).
Definition SHA512 (m : bytes) : bytes := sha2_from sha512_params sha512_init 0 m.

(** The constants of SHA-256 are the leading halves of those of SHA-512. *)
Definition sha256_params : sha2 := {|
  s2_bytes := 4; s2_mask := mask32;
  s2_S0 := fun x => xor3 (rotr 32 mask32 2 x) (rotr 32 mask32 13 x) (rotr 32 mask32 22 x);
  s2_S1 := fun x => xor3 (rotr 32 mask32 6 x) (rotr 32 mask32 11 x) (rotr 32 mask32 25 x);
  s2_s0 := fun x => xor3 (rotr 32 mask32 7 x) (rotr 32 mask32 18 x) (Z.shiftr x 3);
  s2_s1 := fun x => xor3 (rotr 32 mask32 17 x) (rotr 32 mask32 19 x) (Z.shiftr x 10);
  s2_K := map (fun k => Z.shiftr k 32) (firstn 64 K512) |}.
Definition sha256_init : state8 :=
  (0x6a09e667, 0xbb67ae85, 0x3c6ef372, 0xa54ff53a, 0x510e527f, 0x9b05688c, 0x1f83d9ab, 0x5be0cd19).
Definition SHA256 (m : bytes) : bytes := sha2_from sha256_params sha256_init 0 m.

(** ** HMAC (RFC 2104) with SHA-512: block size 128 *)
Definition hmac_key (k : bytes) : bytes :=
  let k := if (128 <? length k)%nat then SHA512 k else k in k ++ repeat 0 (128 - length k).
Definition hmac_states (k : bytes) : state8 * state8 :=
  let k := hmac_key k in
  (sha2_block sha512_params sha512_init (map (Z.lxor 54) k), sha2_block sha512_params sha512_init (map (Z.lxor 92) k)).
Definition hmac_with (ks : state8 * state8) (m : bytes) : bytes :=
  sha2_from sha512_params (snd ks) 128 (sha2_from sha512_params (fst ks) 128 m).
Definition HMAC_SHA512 (k m : bytes) : bytes := hmac_with (hmac_states k) m.

(** ** PBKDF2 (RFC 8018, 5.2) with HMAC-SHA-512 *)
Fixpoint xor_bytes (a b : bytes) : bytes :=
  match a, b with x :: a, y :: b => Z.lxor x y :: xor_bytes a b | _, _ => [] end.
Definition pbkdf2_block (ks : state8 * state8) (salt : bytes) (iter : Z) (i : nat) : bytes :=
  let u := hmac_with ks (salt ++ be_bytes 4 (Z.of_nat i)) in
  snd (Z.iter (iter - 1) (fun ut => let u := hmac_with ks (fst ut) in (u, xor_bytes (snd ut) u)) (u, u)).
Definition PBKDF2_SHA512 (password salt : bytes) (iter : Z) (n : nat) : bytes :=
  let ks := hmac_states password in
  firstn n (flat_map (pbkdf2_block ks salt iter) (seq 1 ((n + 63) / 64))).

(** ** BLAKE2b (RFC 7693), without a key *)
Definition blake2b_iv : list Z :=
  let '(a, b, c, d, e, f, g, h) := sha512_init in [a; b; c; d; e; f; g; h].
Definition blake2b_sigma : list (list nat) :=
  ([[0; 1; 2; 3; 4; 5; 6; 7; 8; 9; 10; 11; 12; 13; 14; 15];
   [14; 10; 4; 8; 9; 15; 13; 6; 1; 12; 0; 2; 11; 7; 5; 3];
   [11; 8; 12; 0; 5; 2; 15; 13; 10; 14; 3; 6; 7; 1; 9; 4];
   [7; 9; 3; 1; 13; 12; 11; 14; 2; 6; 5; 10; 4; 0; 15; 8];
   [9; 0; 5; 7; 2; 4; 10; 15; 14; 1; 11; 12; 6; 8; 3; 13];
   [2; 12; 6; 10; 0; 11; 8; 3; 4; 13; 7; 5; 15; 14; 1; 9];
   [12; 5; 1; 15; 14; 13; 4; 10; 0; 7; 6; 3; 9; 2; 8; 11];
   [13; 11; 7; 14; 12; 1; 3; 9; 5; 0; 15; 4; 8; 6; 2; 10];
   [6; 15; 14; 9; 11; 3; 0; 8; 12; 2; 13; 7; 1; 4; 10; 5];
   [10; 2; 8; 4; 7; 6; 1; 5; 15; 11; 9; 14; 3; 12; 13; 0]])%nat.
Definition mix (a b c d x y : Z) : Z * Z * Z * Z :=
  let add u v := Z.land (u + v) mask64 in
  let a := add (a + b) x in let d := rotr 64 mask64 32 (Z.lxor d a) in
  let c := add c d in let b := rotr 64 mask64 24 (Z.lxor b c) in
  let a := add (a + b) y in let d := rotr 64 mask64 16 (Z.lxor d a) in
  let c := add c d in let b := rotr 64 mask64 63 (Z.lxor b c) in
  (a, b, c, d).
(** Rows of the working vector. *)
Definition row4 : Type := Z * Z * Z * Z.
Definition mix4 (a b c d : row4) (m : nat -> Z) : row4 * row4 * row4 * row4 :=
  let '(a0, a1, a2, a3) := a in let '(b0, b1, b2, b3) := b in let '(c0, c1, c2, c3) := c in let '(d0, d1, d2, d3) := d in
  let '(a0, b0, c0, d0) := mix a0 b0 c0 d0 (m 0%nat) (m 1%nat) in let '(a1, b1, c1, d1) := mix a1 b1 c1 d1 (m 2%nat) (m 3%nat) in
  let '(a2, b2, c2, d2) := mix a2 b2 c2 d2 (m 4%nat) (m 5%nat) in let '(a3, b3, c3, d3) := mix a3 b3 c3 d3 (m 6%nat) (m 7%nat) in
  ((a0, a1, a2, a3), (b0, b1, b2, b3), (c0, c1, c2, c3), (d0, d1, d2, d3)).
Definition rot_row (r : row4) : row4 := let '(x0, x1, x2, x3) := r in (x1, x2, x3, x0).
Definition blake2b_round (m : list Z) (v : row4 * row4 * row4 * row4) (s : list nat) : row4 * row4 * row4 * row4 :=
  let w i := nth (nth i s 0%nat) m 0 in
  let '(a, b, c, d) := v in
  let '(a, b, c, d) := mix4 a b c d w in
  let '(a, b, c, d) := mix4 a (rot_row b) (rot_row (rot_row c)) (rot_row (rot_row (rot_row d))) (fun i => w (8 + i)%nat) in
  (a, rot_row (rot_row (rot_row b)), rot_row (rot_row c), rot_row d).
Definition blake2b_F (h : row4 * row4) (block : bytes) (t : Z) (last : bool) : row4 * row4 :=
  let m := map le_word (pieces 16 8 block) in
  let '(h0, h1) := h in
  let i k := nth k blake2b_iv 0 in
  let d := (Z.lxor (i 4%nat) (Z.land t mask64), Z.lxor (i 5%nat) (Z.shiftr t 64),
            (if last then Z.lxor (i 6%nat) mask64 else i 6%nat), i 7%nat) in
  let '(a, b, c, d) := fold_left (blake2b_round m) (blake2b_sigma ++ firstn 2 blake2b_sigma) (h0, h1, (i 0%nat, i 1%nat, i 2%nat, i 3%nat), d) in
  let x4 (p q r : row4) := let '(p0, p1, p2, p3) := p in let '(q0, q1, q2, q3) := q in let '(r0, r1, r2, r3) := r in
    (xor3 p0 q0 r0, xor3 p1 q1 r1, xor3 p2 q2 r2, xor3 p3 q3 r3) in
  (x4 h0 a c, x4 h1 b d).
(** All blocks but the last, then the last one, filled with zeros; [t] counts the bytes. *)
Fixpoint blake2b_blocks (blocks : nat) (h : row4 * row4) (m : bytes) (t : Z) : row4 * row4 :=
  match blocks with
  | O => blake2b_F h (m ++ repeat 0 (128 - length m)) (t + Z.of_nat (length m)) true
  | S n => blake2b_blocks n (blake2b_F h (firstn 128 m) (t + 128) false) (skipn 128 m) (t + 128)
  end.
Definition BLAKE2b (n : nat) (m : bytes) : bytes :=
  let i k := nth k blake2b_iv 0 in
  let h0 := (Z.lxor (i 0%nat) (0x01010000 + Z.of_nat n), i 1%nat, i 2%nat, i 3%nat) in
  let h1 := (i 4%nat, i 5%nat, i 6%nat, i 7%nat) in
  let '((a, b, c, d), (e, f, g, h)) := blake2b_blocks ((length m - 1) / 128) (h0, h1) m 0 in
  firstn n (flat_map (le_bytes 8) [a; b; c; d; e; f; g; h]).

(** The interface of Model/Bip32.v *)
Definition real_hashes : Hashes := {|
  sha256 := SHA256; sha512 := SHA512; hmac_sha512 := HMAC_SHA512; pbkdf2_sha512 := PBKDF2_SHA512;
  blake2b_224 := BLAKE2b 28; blake2b_256 := BLAKE2b 32 |}.
