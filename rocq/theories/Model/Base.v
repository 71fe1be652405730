(** Common vocabulary of the model: Go integers, byte slices, results.
    [uint] and [int] are taken to be 64 bits wide (amd64, arm64). *)
From Coq Require Export ZArith List Bool Lia.
From Coq Require Ascii String.
Export String.StringSyntax.
#[global] Bind Scope string_scope with String.string.
Delimit Scope string_scope with string.
Export ListNotations.
Global Open Scope Z_scope.

(** A Go byte slice or string: a list of integers; [bytes_ok] says that each is a byte. *)
Definition bytes := list Z.
Definition is_byte (b : Z) : Prop := 0 <= b < 256.
Definition bytes_ok (l : bytes) : Prop := Forall is_byte l.
Definition is_byteb (b : Z) : bool := (0 <=? b) && (b <? 256).

(** Go's fixed-width conversions (language specification, "Integer overflow"): wrap around. *)
Definition u8 (x : Z) : Z := x mod 2 ^ 8.
Definition u16 (x : Z) : Z := x mod 2 ^ 16.
Definition u32 (x : Z) : Z := x mod 2 ^ 32.
Definition u64 (x : Z) : Z := x mod 2 ^ 64.
Definition i8 (x : Z) : Z := (x + 2 ^ 7) mod 2 ^ 8 - 2 ^ 7.
Definition i32 (x : Z) : Z := (x + 2 ^ 31) mod 2 ^ 32 - 2 ^ 31.
Definition i64 (x : Z) : Z := (x + 2 ^ 63) mod 2 ^ 64 - 2 ^ 63.

(** The errors the modelled functions return. Only identity matters; the text is in the comments. *)
Inductive goerror :=
| EBech32Range        (* bech32.go:68  invalid data range *)
| EBech32ZeroPad      (* bech32.go:82  illegal zero padding *)
| EBech32NonZeroPad   (* bech32.go:84  non-zero padding *)
| EBech32HRP          (* bech32.go:95  invalid HRP *)
| EBech32HRPChar      (* bech32.go:99,133  invalid HRP character *)
| EBech32Mixed        (* bech32.go:103,124  mixed case *)
| EBech32Sep          (* bech32.go:128 separator '1' at invalid position *)
| EBech32Char         (* bech32.go:140 invalid character data part *)
| EBech32Checksum     (* bech32.go:145 invalid checksum *)
| EBtcBech32Byte      (* btcutil bech32 toChars: invalid data byte *)
| EHexByte            (* encoding/hex InvalidByteError *)
| EHexLength          (* encoding/hex ErrLength *)
| ENotEnough          (* address.go:95,130,142  cbor not enough error *)
| ETrailing           (* address.go:117,133,145 cbor trailing data error *)
| EVarNat             (* pointer.go:48 unexpected bytes *)
| EUnsupported        (* address.go:16 ErrUnsupportedAddress *)
| ECborDecode         (* any error of cbor.Unmarshal *)
| ECborEncode         (* any error of cbor.Marshal *)
| EByronInvalid       (* byron.go:13 ErrInvalidByronAddress *)
| EByronChecksum      (* byron.go:14 ErrInvalidByronChecksum *)
| EByronContent       (* byron.go:95 errors.New("") *)
| EUnexpectedBytes    (* crypto.go:65.. unexpected bytes *)
| ESeedLength         (* bip32.go:28 seed needs to be 256 bits long *)
| EAtoi               (* strconv.Atoi / ParseUint *)
| EExec               (* os/exec failure *)
| EHttp               (* HTTP or API failure *)
| EFuel.              (* not a Go error: a modelled loop ran out of fuel (proved unreachable) *)

(** The outcome of a Go call: a value, a non-nil error, or a run-time panic. *)
Inductive result (A : Type) :=
| Ok (a : A)
| Err (e : goerror)
| Panic.
Arguments Ok {A}. Arguments Err {A}. Arguments Panic {A}.

Definition bind {A B} (r : result A) (f : A -> result B) : result B :=
  match r with Ok a => f a | Err e => Err e | Panic => Panic end.
Notation "'do' x <- r ; k" := (bind r (fun x => k))
  (at level 200, x name, r at level 100, k at level 200).
Notation "'do' ' x <- r ; k" := (bind r (fun x => k))
  (at level 200, x strict pattern, r at level 100, k at level 200).

(** ASCII literals as byte strings. *)
Definition str (s : String.string) : bytes :=
  map (fun a => Z.of_N (Ascii.N_of_ascii a)) (String.list_ascii_of_string s).
Arguments str s%string.

(** Length of a slice as a Go int. *)
Definition zlen {A} (l : list A) : Z := Z.of_nat (length l).

(** Go slice expression [l[lo:hi]] on a slice with [cap = len]: panics unless 0 <= lo <= hi <= len. *)
Definition slice {A} (l : list A) (lo hi : nat) : result (list A) :=
  if ((lo <=? hi) && (hi <=? length l))%nat
  then Ok (firstn (hi - lo) (skipn lo l)) else Panic.

(** Go index expression [l[i]]: panics when out of range. *)
Definition index {A} (l : list A) (i : nat) : result A :=
  match nth_error l i with Some x => Ok x | None => Panic end.

(** Go [copy(dst[lo:hi], src)] on an array value: copies [min (hi-lo) (len src)] elements. *)
Definition copy_at {A} (dst : list A) (lo hi : nat) (src : list A) : list A :=
  let n := Nat.min (hi - lo) (length src) in
  firstn lo dst ++ firstn n src ++ skipn (lo + n) dst.
