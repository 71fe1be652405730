(** Model of /repo/bip32/bip32.go and of Blake2b224 in /repo/crypto/crypto.go. Keys are byte lists (a slice whose capacity is its length). *)
From Verif.Model Require Import Base Edwards.

(** The hash functions of Go's crypto packages and of golang.org/x/crypto. [hmac_sha512 key message] stands for
    hmac.New(sha512.New, key), a sequence of Writes whose concatenation is the message, and Sum(nil).
    [pbkdf2_sha512 password salt iterations length] is pbkdf2.Key with sha512.New. *)
Class Hashes := {
  sha256 : bytes -> bytes;
  sha512 : bytes -> bytes;
  hmac_sha512 : bytes -> bytes -> bytes;
  pbkdf2_sha512 : bytes -> bytes -> Z -> nat -> bytes;
  blake2b_224 : bytes -> bytes;
  blake2b_256 : bytes -> bytes
}.

(** bip32.go:15-18 *)
Definition XPrv_Size : nat := 96.
Definition SignatureLength : nat := 64.
(** crypto.go:21 *)
Definition PublicKeyLen : nat := 32.

(** Assignment [l[i] = f(l[i])]; panics when out of range. *)
Definition update (l : bytes) (i : nat) (f : Z -> Z) : result bytes :=
  do x <- index l i;
  Ok (firstn i l ++ f x :: skipn (S i) l).

Section Bip32.
Context {H : Hashes}.

(** bip32.go:25-51. sha512.Sum512 and sha256.Sum256 return arrays, so the indices are in range. *)
Definition NewXPrv (seed : bytes) : result bytes :=
  if negb (length seed =? 32)%nat then Err ESeedLength else
  let k := sha512 seed in
  do k <- update k 0 (fun b => Z.land b 248);
  do k <- update k 31 (fun b => Z.land b 95);
  do k <- update k 31 (fun b => Z.lor b 64);
  let rootChainCode := sha256 (1 :: seed) in
  Ok (k ++ rootChainCode).

(** 53-55 *)
Definition isHardened (index : Z) : bool := 2147483648 <=? index.
(** 61-63 *)
Definition extendedPrivateKey (key : bytes) : result bytes := slice key 0 64.
(** 65-67 *)
Definition XPrv_ChainCode (key : bytes) : result bytes := slice key 64 (length key).

(** 175-184: copy of the first 32 bytes, fixed-base multiplication, encoding. *)
Definition MakePublicKey (extendedSecret : bytes) : result bytes :=
  do s <- slice extendedSecret 0 32;
  let key := copy_at (repeat 0 PublicKeyLen) 0 PublicKeyLen s in
  Ok (Ext_ToBytes (GeScalarMultBase key)).
(** 57-59 *)
Definition publicKey (key : bytes) : result bytes := do k <- extendedPrivateKey key; MakePublicKey k.

(** 73-77, 78-82, 90-94: the loop bodies, for the indices in [is]; [y] is absent in the second loop of add28mul8.
    All arithmetic is on uint16. Returns the bytes written and the carry. *)
Fixpoint add_loop (is : list nat) (x : bytes) (y : nat -> result Z) (carry : Z) : result (bytes * Z) :=
  match is with
  | [] => Ok ([], carry)
  | i :: is =>
      do xi <- index x i;
      do yi <- y i;
      let r := u16 (u16 (u16 xi + yi) + carry) in
      do ' (out, carry) <- add_loop is x y (Z.shiftr r 8);
      Ok (u8 (Z.land r 255) :: out, carry)
  end.
(** 69-84 *)
Definition add28mul8 (x y : bytes) : result bytes :=
  do ' (lo, carry) <- add_loop (seq 0 28) x (fun i => do yi <- index y i; Ok (u16 (Z.shiftl (u16 yi) 3))) 0;
  do ' (hi, _) <- add_loop (seq 28 4) x (fun _ => Ok 0) carry;
  Ok (lo ++ hi).
(** 86-96 *)
Definition add256bits (x y : bytes) : result bytes :=
  do ' (out, _) <- add_loop (seq 0 32) x (fun i => do yi <- index y i; Ok (u16 yi)) 0;
  Ok out.

(** encoding/binary: LittleEndian.PutUint32 *)
Definition put_uint32 (v : Z) : bytes := [u8 v; u8 (Z.shiftr v 8); u8 (Z.shiftr v 16); u8 (Z.shiftr v 24)].

(** 102-120: the messages written to zmac and imac *)
Definition derive_messages (key : bytes) (index : Z) : result (bytes * bytes) :=
  let serializedIndex := put_uint32 index in
  if isHardened index then
    do k <- extendedPrivateKey key;
    Ok ([0] ++ k ++ serializedIndex, [1] ++ k ++ serializedIndex)
  else
    do k <- extendedPrivateKey key;
    do pk <- MakePublicKey k;
    Ok ([2] ++ pk ++ serializedIndex, [3] ++ pk ++ serializedIndex).
(** 98-138 *)
Definition Derive (key : bytes) (index : Z) : result bytes :=
  do cc <- XPrv_ChainCode key;
  do ' (zmsg, imsg) <- derive_messages key index;
  let zout := hmac_sha512 cc zmsg in
  let iout := hmac_sha512 cc imsg in
  do kl <- slice key 0 32;
  do zl <- slice zout 0 32;
  do left <- add28mul8 kl zl;
  do kr <- slice key 32 64;
  do zr <- slice zout 32 64;
  do right <- add256bits kr zr;
  do c <- slice iout 32 (length iout);
  Ok (left ++ right ++ c).

(** 140-146 *)
Definition Public (key : bytes) : result bytes :=
  do pk <- publicKey key;
  do cc <- XPrv_ChainCode key;
  Ok (pk ++ cc).
(** 148-150 *)
Definition XPub_PublicKey (pub : bytes) : result bytes := slice pub 0 32.
(** 152-154 *)
Definition XPub_ChainCode (pub : bytes) : result bytes := slice pub 32 (length pub).

(** 164-169 *)
Definition NormalizeBytesForce3rd (b : bytes) : result bytes :=
  do b <- update b 0 (fun v => Z.land v 248);
  do b <- update b 31 (fun v => Z.land v 31);
  do b <- update b 31 (fun v => Z.lor v 64);
  Ok b.
(** 158-162 *)
Definition FromBip39Entropy (entropy password : bytes) : result bytes :=
  NormalizeBytesForce3rd (pbkdf2_sha512 password entropy 4096 XPrv_Size).

(** crypto.go:38-46 *)
Definition Blake2b224 (data : bytes) : result bytes :=
  do s <- slice (blake2b_224 data) 0 28;
  Ok (copy_at (repeat 0 28) 0 28 s).
(** crypto.go:49-58 *)
Definition Blake2b256 (data : bytes) : result bytes :=
  do s <- slice (blake2b_256 data) 0 32;
  Ok (copy_at (repeat 0 32) 0 32 s).
(** bip32.go:171-173 *)
Definition PublicKey_Hash (pub : bytes) : result bytes := Blake2b224 pub.

(** 190-196 *)
Definition getFilledArray (length : nat) (val : Z) : bytes := repeat val length.
(** 198-236 *)
Definition Sign (prv message : bytes) : result bytes :=
  do publicKey <- MakePublicKey prv;
  do kr <- slice prv 32 64;
  do hashOutput <- slice (sha512 (kr ++ message)) 0 64;
  let hashFull := copy_at (repeat 0 64) 0 64 hashOutput in
  let nonce := ScReduce hashFull in
  let signature := copy_at (repeat 0 SignatureLength) 0 64 (getFilledArray SignatureLength 0) in
  let r := Ext_ToBytes (GeScalarMultBase nonce) in
  let signature := copy_at signature 0 32 r in
  let signature := copy_at signature 32 64 publicKey in
  let hramTmp := sha512 (signature ++ message) in
  let hram := copy_at (repeat 0 64) 0 64 hramTmp in
  let hramReduced := ScReduce hram in
  do kl <- slice prv 0 32;
  let b := copy_at (repeat 0 32) 0 32 kl in
  let s := ScMulAdd hramReduced b nonce in
  Ok (copy_at signature 32 64 s).
End Bip32.
