(** Model of /repo/tx (tx.go, tx_body.go, tx_input_output.go, tx_witness_set.go), /repo/fees/linear.go and
    the pure part of tx/tx_builder.go. Pointers are values here; sharing is in Builder.v. *)
From Verif.Model Require Import Base Bech32 Hex Cbor Network Address.

(** Functions of golang.org/x/crypto and of package bip32 that package tx calls: BLAKE2b-256 (tx.go:58,89)
    and, for a signing key, [prv.Public().PublicKey()] and [prv.Sign(hash)] (tx_builder.go:31-32).
    Model/Bip32.v gives the last two; here they are parameters. *)
Class TxCrypto := {
  blake2b256 : bytes -> bytes;
  key_public : bytes -> result bytes;
  key_sign : bytes -> bytes -> result bytes
}.

(** ** Metadata: the dynamic values an [interface{}] may hold, as far as cbor.Marshal distinguishes them.
    [MdMap] lists the entries of a Go map in some order; [MdBad] stands for a value cbor.Marshal rejects
    (func, chan, ...). *)
Inductive md :=
| MdUint (n : Z)
| MdNint (n : Z)             (* the integer -1-n *)
| MdBytes (b : bytes)
| MdText (s : bytes)
| MdBool (b : bool)
| MdNull                     (* a nil map, slice, pointer or interface *)
| MdArray (l : list md)
| MdMap (l : list (md * md))
| MdStruct (l : list (md * md))      (* the fields of a struct that are written, with their keys, in their order *)
| MdTag (t : Z) (v : md)     (* cbor.Tag, big.Int beyond 64 bits; the zero cbor.Tag is MdNull *)
| MdFloat (double : bool) (bits : Z)  (* float64 or float32 by its bits *)
| MdBad.

(** cbor.Marshal of a metadata value whose maps are visited in the order listed. *)
Fixpoint enc_md (m : md) : result bytes :=
  match m with
  | MdUint n => Ok (enc_uint n)
  | MdNint n => Ok (enc_nint n)
  | MdBytes b => Ok (enc_bytes b)
  | MdText s => Ok (enc_text s)
  | MdBool b => Ok (enc_bool b)
  | MdNull => Ok enc_nil
  | MdArray l =>
      do body <- (fix go (l : list md) : result bytes :=
                    match l with
                    | [] => Ok []
                    | x :: r => do a <- enc_md x; do b <- go r; Ok (a ++ b)
                    end) l;
      Ok (enc_array_head (zlen l) ++ body)
  | MdMap l =>
      do body <- (fix go (l : list (md * md)) : result bytes :=
                    match l with
                    | [] => Ok []
                    | (k, v) :: r => do a <- enc_md k; do b <- enc_md v; do c <- go r; Ok (a ++ b ++ c)
                    end) l;
      Ok (enc_map_head (zlen l) ++ body)
  | MdStruct l =>
      do body <- (fix go (l : list (md * md)) : result bytes :=
                    match l with
                    | [] => Ok []
                    | (k, v) :: r => do a <- enc_md k; do b <- enc_md v; do c <- go r; Ok (a ++ b ++ c)
                    end) l;
      Ok (enc_map_head (zlen l) ++ body)
  | MdTag t v => do a <- enc_md v; Ok (enc_tag_head t ++ a)
  | MdFloat double bits => Ok (enc_float double bits)
  | MdBad => Err ECborEncode
  end.

(** The Go runtime chooses the iteration order of maps afresh each time a value is marshalled (the
    default EncOptions have Sort: SortNone). [map_order n] is the choice made by the n-th marshalling;
    theorems assume only that it permutes map entries. *)
Class MapOrder := { map_order : nat -> md -> md }.

(** ** Transaction types *)

(** tx_input_output.go:10-16. A nil TxHash is not modelled. *)
Record TxInput := { TxHash : bytes; Index : Z; InAmount : Z }.

(** tx_input_output.go:19-27: the decoding error is dropped, the bytes decoded before it are kept. *)
Definition NewTxInput (txHash : bytes) (txIx amount : Z) : TxInput :=
  {| TxHash := fst (hex_decode_prefix txHash); Index := txIx; InAmount := amount |}.

(** tx_input_output.go:42-46. A nil Address is in Model/NilTx.v. *)
Record TxOutput := { OutAddress : Address; OutAmount : Z }.

(** tx_witness_set.go:21-25 *)
Record VKeyWitness := { VKey : bytes; Signature : bytes }.

(** tx_body.go:10-16. An empty AuxiliaryDataHash is the nil slice. *)
Record TxBody := { Inputs : list TxInput; Outputs : list TxOutput; Fee : Z; TTL : Z; AuxHash : bytes }.

(** tx_body.go:19-24 *)
Definition NewTxBody : TxBody := {| Inputs := []; Outputs := []; Fee := 0; TTL := 0; AuxHash := [] |}.

(** tx.go:12-18 *)
Record Tx := { Body : TxBody; Witness : list VKeyWitness; Valid : bool; Metadata : option md }.

(** tx.go:21-27 *)
Definition NewTx : Tx := {| Body := NewTxBody; Witness := []; Valid := true; Metadata := None |}.

(** ** Serialization *)

(** tx_input_output.go:29-40 *)
Definition enc_input (i : TxInput) : bytes :=
  enc_array_head 2 ++ enc_bytes (TxHash i) ++ enc_uint (Index i).

(** tx_input_output.go:42-46, struct as array *)
Definition enc_output (o : TxOutput) : result bytes :=
  do a <- addr_marshal (OutAddress o);
  Ok (enc_array_head 2 ++ a ++ enc_uint (OutAmount o)).

Fixpoint enc_outputs (l : list TxOutput) : result bytes :=
  match l with
  | [] => Ok []
  | o :: r => do a <- enc_output o; do b <- enc_outputs r; Ok (a ++ b)
  end.

(** tx_body.go:10-16: a map with integer keys; keys 3 and 7 are omitempty. *)
Definition body_marshal (b : TxBody) : result bytes :=
  do outs <- enc_outputs (Outputs b);
  let n := 3 + (if TTL b =? 0 then 0 else 1) + (if zlen (AuxHash b) =? 0 then 0 else 1) in
  Ok (enc_map_head n
      ++ enc_uint 0 ++ enc_array_head (zlen (Inputs b)) ++ concat (map enc_input (Inputs b))
      ++ enc_uint 1 ++ enc_array_head (zlen (Outputs b)) ++ outs
      ++ enc_uint 2 ++ enc_uint (Fee b)
      ++ (if TTL b =? 0 then [] else enc_uint 3 ++ enc_uint (TTL b))
      ++ (if zlen (AuxHash b) =? 0 then [] else enc_uint 7 ++ enc_bytes (AuxHash b))).

(** tx_body.go:33-39; Bytes, tx_body.go:27-30, is [body_marshal]. *)
Definition body_hex (b : TxBody) : result bytes :=
  do s <- body_marshal b; Ok (hex_encode s).

(** tx_witness_set.go:21-25 *)
Definition enc_vkey (w : VKeyWitness) : bytes :=
  enc_array_head 2 ++ enc_bytes (VKey w) ++ enc_bytes (Signature w).

(** tx_witness_set.go:3-5 *)
Definition enc_witness (ws : list VKeyWitness) : bytes :=
  match ws with
  | [] => enc_map_head 0
  | _ => enc_map_head 1 ++ enc_uint 0 ++ enc_array_head (zlen ws) ++ concat (map enc_vkey ws)
  end.

(** cbor.Marshal(t), tx.go:34,68; [n] numbers the marshalling. *)
Definition tx_marshal `{MapOrder} (n : nat) (t : Tx) : result bytes :=
  do b <- body_marshal (Body t);
  do m <- match Metadata t with None => Ok enc_nil | Some m => enc_md (map_order n m) end;
  Ok (enc_array_head 4 ++ b ++ enc_witness (Witness t) ++ enc_bool (Valid t) ++ m).

Definition set_aux (b : TxBody) (h : bytes) : TxBody :=
  {| Inputs := Inputs b; Outputs := Outputs b; Fee := Fee b; TTL := TTL b; AuxHash := h |}.
Definition set_fee (b : TxBody) (f : Z) : TxBody :=
  {| Inputs := Inputs b; Outputs := Outputs b; Fee := f; TTL := TTL b; AuxHash := AuxHash b |}.
Definition set_ttl (b : TxBody) (x : Z) : TxBody :=
  {| Inputs := Inputs b; Outputs := Outputs b; Fee := Fee b; TTL := x; AuxHash := AuxHash b |}.
Definition add_inputs (b : TxBody) (l : list TxInput) : TxBody :=
  {| Inputs := Inputs b ++ l; Outputs := Outputs b; Fee := Fee b; TTL := TTL b; AuxHash := AuxHash b |}.
Definition add_outputs (b : TxBody) (l : list TxOutput) : TxBody :=
  {| Inputs := Inputs b; Outputs := Outputs b ++ l; Fee := Fee b; TTL := TTL b; AuxHash := AuxHash b |}.
Definition with_body (t : Tx) (b : TxBody) : Tx :=
  {| Body := b; Witness := Witness t; Valid := Valid t; Metadata := Metadata t |}.
Definition with_witness (t : Tx) (w : list VKeyWitness) : Tx :=
  {| Body := Body t; Witness := w; Valid := Valid t; Metadata := Metadata t |}.
Definition with_metadata (t : Tx) (m : option md) : Tx :=
  {| Body := Body t; Witness := Witness t; Valid := Valid t; Metadata := m |}.

(** tx.go:83-93: the body after CalculateAuxiliaryDataHash, or the error (body unchanged). *)
Definition calc_aux `{TxCrypto} `{MapOrder} (n : nat) (t : Tx) : result TxBody :=
  match Metadata t with
  | None => Ok (Body t)
  | Some m => do mb <- enc_md (map_order n m); Ok (set_aux (Body t) (blake2b256 mb))
  end.

(** A method that updates the body through the pointer and returns a value or error: the body afterwards,
    and the outcome. *)
Definition after_aux `{TxCrypto} `{MapOrder} {A} (n : nat) (t : Tx) (k : Tx -> result A)
  : TxBody * result A :=
  match calc_aux n t with
  | Ok b => (b, k (with_body t b))
  | Err e => (Body t, Err e)
  | Panic => (Body t, Panic)
  end.

(** tx.go:30-36. Uses marshallings n and n+1. *)
Definition tx_bytes `{TxCrypto} `{MapOrder} (n : nat) (t : Tx) : TxBody * result bytes :=
  after_aux n t (tx_marshal (S n)).

(** tx.go:39-45 *)
Definition tx_hex `{TxCrypto} `{MapOrder} (n : nat) (t : Tx) : TxBody * result bytes :=
  let (b, r) := tx_bytes n t in (b, do s <- r; Ok (hex_encode s)).

(** tx.go:48-60. Uses marshalling n. *)
Definition tx_hash `{TxCrypto} `{MapOrder} (n : nat) (t : Tx) : TxBody * result bytes :=
  after_aux n t (fun t' => do b <- body_marshal (Body t'); Ok (blake2b256 b)).

(** fees/linear.go:5-16 *)
Record LinearFee := { TxFeePerByte : Z; TxFeeFixed : Z }.

(** tx.go:64-76. Uses marshallings n and n+1. *)
Definition tx_fee `{TxCrypto} `{MapOrder} (n : nat) (lfee : LinearFee) (t : Tx) : TxBody * result Z :=
  after_aux n t (fun t' =>
    do txCbor <- tx_marshal (S n) t';
    Ok (u64 (TxFeeFixed lfee + u64 (TxFeePerByte lfee * zlen txCbor)))).

(** ** The pure part of the builder *)

(** tx_builder.go:69-78: uint sums wrap modulo 2^64. *)
Definition total_inputs (b : TxBody) : Z := fold_left (fun a i => u64 (a + InAmount i)) (Inputs b) 0.
Definition total_outputs (b : TxBody) : Z := fold_left (fun a o => u64 (a + OutAmount o)) (Outputs b) 0.

(** tx_builder.go:105: the address NewAddress returns for the constant string (checked in
    Proofs/TxFacts.v). *)
Definition placeholder_text : bytes :=
  str "addr_test1qqe6zztejhz5hq0xghlf72resflc4t2gmu9xjlf73x8dpf88d78zlt4rng3ccw8g5vvnkyrvt96mug06l5eskxh8rcjq2wyd63".
Definition placeholder_addr : Address :=
  ABase {| ba_net := TestNet;
           ba_pay := NewKeyStakeCredential
             [51; 161; 9; 121; 149; 197; 75; 129; 230; 69; 254; 159; 40; 121; 130; 127; 138; 173; 72; 223;
              10; 105; 125; 62; 137; 142; 208; 164];
           ba_stake := NewKeyStakeCredential
             [231; 111; 142; 47; 174; 163; 154; 35; 140; 56; 232; 163; 25; 59; 16; 108; 89; 117; 190; 33;
              250; 253; 51; 11; 26; 231; 30; 36] |}.

(** tx_builder.go:95-98 *)
Definition placeholder_witness : VKeyWitness := {| VKey := repeat 0 32; Signature := repeat 0 64 |}.

(** tx_builder.go:107, the amount of the placeholder output. *)
Definition placeholder_amount (b : TxBody) : Z :=
  u64 (u64 (total_inputs b - total_outputs b) - 200000).

(** [fee, _ = feeTx.Fee(lfee)]: Fee returns 0 together with an error. A panic cannot happen here. *)
Definition fee_or_zero (r : result Z) : Z := match r with Ok f => f | _ => 0 end.

(** tx_builder.go:81-117: the fee, and the witness list left in the builder's transaction. Uses
    marshallings n .. n+4. *)
Definition min_fee `{TxCrypto} `{MapOrder} (n : nat) (lfee : LinearFee) (t : Tx) : Z * list VKeyWitness :=
  let b := Body t in
  let body0 := {| Inputs := Inputs b; Outputs := Outputs b; Fee := Fee b; TTL := TTL b; AuxHash := [] |} in
  let feeTx0 := {| Body := body0; Witness := Witness t; Valid := true; Metadata := Metadata t |} in
  let body1 := match calc_aux n feeTx0 with Ok b' => b' | _ => body0 end in
  let ws := match Witness t with [] => [placeholder_witness] | w => w end in
  let body2 := if total_inputs b =? total_outputs b then body1
               else add_outputs body1 [{| OutAddress := placeholder_addr; OutAmount := placeholder_amount b |}] in
  let feeTx2 := {| Body := body2; Witness := ws; Valid := true; Metadata := Metadata t |} in
  let (body3, r1) := tx_fee (n + 1) lfee feeTx2 in
  let feeTx3 := with_body feeTx2 (set_fee body3 (fee_or_zero r1)) in
  let (_, r2) := tx_fee (n + 3) lfee feeTx3 in
  (fee_or_zero r2, ws).

(** tx_builder.go:50-62, given the fee MinFee returned. *)
Definition change_amount (b : TxBody) : Z := u64 (u64 (total_inputs b - total_outputs b) - Fee b).
Definition add_change (b : TxBody) (fee : Z) (addr : Address) : TxBody :=
  let b1 := set_fee b fee in
  add_outputs b1 [{| OutAddress := addr; OutAmount := change_amount b1 |}].

(** tx_builder.go:29-35: one witness per key, in order. *)
Fixpoint sign_all `{TxCrypto} (keys : list bytes) (hash : bytes) : result (list VKeyWitness) :=
  match keys with
  | [] => Ok []
  | k :: r =>
      do pk <- key_public k;
      do sg <- key_sign k hash;
      do ws <- sign_all r hash;
      Ok ({| VKey := pk; Signature := sg |} :: ws)
  end.
