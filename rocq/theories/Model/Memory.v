(** Go memory as far as sharing matters: byte arrays, and slices that point into them. The functions below are those of Address.v and
    Bip32.v whose results share memory with their arguments, or that write to their arguments. *)
From Verif.Model Require Import Base Bech32 Hex Base58 Network Address Edwards Bip32.

(** All byte arrays of the program; an array never changes its length. *)
Definition Memory := list bytes.
(** A slice header: the array, the offset and the length. The capacity reaches to the end of the array. *)
Record Slice := { sl_array : nat; sl_from : nat; sl_len : nat }.
(** The elements of a slice, and what lies behind them up to its capacity. *)
Definition seen (m : Memory) (s : Slice) : bytes := firstn (sl_len s) (skipn (sl_from s) (nth (sl_array s) m [])).
Definition behind (m : Memory) (s : Slice) : bytes := skipn (sl_len s) (skipn (sl_from s) (nth (sl_array s) m [])).

(** Go slice expression [s[lo:hi]]: panics beyond the capacity, otherwise points into the same array. *)
Definition subslice (m : Memory) (s : Slice) (lo hi : nat) : result Slice :=
  if ((lo <=? hi) && (hi <=? length (nth (sl_array s) m []) - sl_from s))%nat
  then Ok {| sl_array := sl_array s; sl_from := sl_from s + lo; sl_len := hi - lo |} else Panic.
(** Go assignment [s[i] = v]: panics out of range. *)
Definition set_nth {A} (l : list A) (i : nat) (v : A) : list A := firstn i l ++ v :: skipn (S i) l.
Definition store (m : Memory) (s : Slice) (i : nat) (v : Z) : result Memory :=
  if (i <? sl_len s)%nat
  then Ok (set_nth m (sl_array s) (set_nth (nth (sl_array s) m []) (sl_from s + i) v)) else Panic.

(** stake_credential.go:10-27: the payload is the slice given, not a copy. *)
Record Cred := { c_kind : Z; c_payload : Slice }.
(** The address structs of address/*.go, with the payloads as slices. A pointer address copies its three numbers out of the data; the
    fields of a Byron address are copies made by the CBOR decoder. *)
Inductive MAddress :=
| MBase (n : NetworkInfo) (pay stake : Cred)
| MEnterprise (n : NetworkInfo) (pay : Cred)
| MReward (n : NetworkInfo) (stake : Cred)
| MPointer (n : NetworkInfo) (pay : Cred) (p : StakePointer)
| MByron (b : ByronAddress).

(** The value of an address in a state of the memory. *)
Definition cred_now (m : Memory) (c : Cred) : StakeCredential := {| Kind := c_kind c; Payload := seen m (c_payload c) |}.
Definition addr_now (m : Memory) (a : MAddress) : Address :=
  match a with
  | MBase n p s => ABase {| ba_net := n; ba_pay := cred_now m p; ba_stake := cred_now m s |}
  | MEnterprise n p => AEnterprise {| ea_net := n; ea_pay := cred_now m p |}
  | MReward n s => AReward {| ra_net := n; ra_stake := cred_now m s |}
  | MPointer n p q => APointer {| pa_net := n; pa_pay := cred_now m p; pa_ptr := q |}
  | MByron b => AByron b
  end.

(** address.go:155-166 *)
Definition readAddrCred_mem (m : Memory) (data : Slice) (header bit : Z) (pos : nat) : result Cred :=
  do hashBytes <- subslice m data pos (pos + 28);
  if Z.land header (u8 (Z.shiftl 1 bit)) =? 0
  then Ok {| c_kind := 0; c_payload := hashBytes |}
  else Ok {| c_kind := 1; c_payload := hashBytes |}.

(** address.go:57-153 *)
Definition NewAddressFromBytes_mem (m : Memory) (data : Slice) : result MAddress :=
  do header <- index (seen m data) 0;
  let netId := Z.land header 0x0f in
  let kind := Z.shiftr (Z.land header 0xf0) 4 in
  if kind =? 8 then
    do b <- byron_unmarshal (seen m data); Ok (MByron b)
  else if (kind =? 0) || (kind =? 1) || (kind =? 2) || (kind =? 3) then
    do pay <- readAddrCred_mem m data header 4 1;
    do stk <- readAddrCred_mem m data header 5 29;
    Ok (MBase (networks netId) pay stk)
  else if (kind =? 4) || (kind =? 5) then
    if (sl_len data <? 32)%nat then Err ENotEnough else
    do pay <- readAddrCred_mem m data header 4 1;
    do '(slot, n1) <- VariableNatDecode (skipn 29 (seen m data));
    do '(txi, n2) <- VariableNatDecode (skipn (29 + Z.to_nat n1) (seen m data));
    do '(cert, n3) <- VariableNatDecode (skipn (29 + Z.to_nat n1 + Z.to_nat n2) (seen m data));
    if (29 + Z.to_nat n1 + Z.to_nat n2 + Z.to_nat n3 <? sl_len data)%nat then Err ETrailing
    else Ok (MPointer (networks netId) pay (NewPointer slot txi cert))
  else if (kind =? 6) || (kind =? 7) then
    if (sl_len data <? 29)%nat then Err ENotEnough else
    if (29 <? sl_len data)%nat then Err ETrailing else
    do pay <- readAddrCred_mem m data header 4 1;
    Ok (MEnterprise (networks netId) pay)
  else if (kind =? 14) || (kind =? 15) then
    if (sl_len data <? 29)%nat then Err ENotEnough else
    if (29 <? sl_len data)%nat then Err ETrailing else
    do stk <- readAddrCred_mem m data header 4 1;
    Ok (MReward (networks netId) stk)
  else Err EUnsupported.

(** base.go:53-68: the credential is copied, its payload is shared. *)
Definition ToEnterprise_mem (n : NetworkInfo) (pay stake : Cred) : MAddress := MEnterprise n pay.
Definition ToReward_mem (n : NetworkInfo) (pay stake : Cred) : MAddress := MReward n stake.

(** bip32.go:164-169: writes to its argument and returns it. The memory is part of the result even when an index is out of range:
    the writes before the panic have happened. *)
Definition NormalizeBytesForce3rd_mem (m : Memory) (b : Slice) : Memory * result Slice :=
  match index (seen m b) 0 with
  | Ok v => match store m b 0 (Z.land v 248) with
    | Ok m => match index (seen m b) 31 with
      | Ok v => match store m b 31 (Z.land v 31) with
        | Ok m => match index (seen m b) 31 with
          | Ok v => match store m b 31 (Z.lor v 64) with Ok m => (m, Ok b) | _ => (m, Panic) end
          | _ => (m, Panic) end
        | _ => (m, Panic) end
      | _ => (m, Panic) end
    | _ => (m, Panic) end
  | _ => (m, Panic)
  end.
(** bip32.go:61-67, 148-154: parts of a key are slices of it. *)
Definition extendedPrivateKey_mem (m : Memory) (key : Slice) : result Slice := subslice m key 0 64.
Definition XPrv_ChainCode_mem (m : Memory) (key : Slice) : result Slice :=
  if (64 <=? sl_len key)%nat then subslice m key 64 (sl_len key) else Panic.
Definition XPub_PublicKey_mem (m : Memory) (key : Slice) : result Slice := subslice m key 0 32.
Definition XPub_ChainCode_mem (m : Memory) (key : Slice) : result Slice :=
  if (32 <=? sl_len key)%nat then subslice m key 32 (sl_len key) else Panic.

(** bip32.go:174-184 and 198-236: [prv[:32]], [prv[32:64]] and [prv[0:32]] are bounded by the capacity of the key, not its length. *)
Definition MakePublicKey_mem (m : Memory) (extendedSecret : Slice) : result bytes :=
  do s <- subslice m extendedSecret 0 32;
  let key := copy_at (repeat 0 PublicKeyLen) 0 PublicKeyLen (seen m s) in
  Ok (Ext_ToBytes (GeScalarMultBase key)).
Definition Sign_mem {H : Hashes} (m : Memory) (prv : Slice) (message : bytes) : result bytes :=
  do publicKey <- MakePublicKey_mem m prv;
  do kr <- subslice m prv 32 64;
  do hashOutput <- slice (sha512 (seen m kr ++ message)) 0 64;
  let hashFull := copy_at (repeat 0 64) 0 64 hashOutput in
  let nonce := ScReduce hashFull in
  let signature := copy_at (repeat 0 SignatureLength) 0 64 (getFilledArray SignatureLength 0) in
  let r := Ext_ToBytes (GeScalarMultBase nonce) in
  let signature := copy_at signature 0 32 r in
  let signature := copy_at signature 32 64 publicKey in
  let hramTmp := sha512 (signature ++ message) in
  let hram := copy_at (repeat 0 64) 0 64 hramTmp in
  let hramReduced := ScReduce hram in
  do kl <- subslice m prv 0 32;
  let b := copy_at (repeat 0 32) 0 32 (seen m kl) in
  let s := ScMulAdd hramReduced b nonce in
  Ok (copy_at signature 32 64 s).

(** A slice of a new array holding [data] and, up to its capacity, [spare]. *)
Definition alloc (m : Memory) (data spare : bytes) : Memory * Slice :=
  (m ++ [data ++ spare], {| sl_array := length m; sl_from := 0; sl_len := length data |}).
(** address.go:48-55 and 32-46: the decoders return a slice of an array of their own. *)
Definition NewAddressFromHex_mem `{Runtime} (m : Memory) (hexAddr : bytes) : Memory * result MAddress :=
  match hex_decode hexAddr with
  | Ok data => let '(m, s) := alloc m data (hex_spare hexAddr) in (m, NewAddressFromBytes_mem m s)
  | Err e => (m, Err e)
  | Panic => (m, Panic)
  end.
Definition NewAddress_mem `{Unicode} `{Runtime} (m : Memory) (raw : bytes) : Memory * result MAddress :=
  if has_prefix raw (str "addr") || has_prefix raw (str "stake") then
    match decode raw with
    | Ok (_, data) => let '(m, s) := alloc m data (append_spare (length data)) in (m, NewAddressFromBytes_mem m s)
    | Err e => (m, Err e)
    | Panic => (m, Panic)
    end
  else let '(m, s) := alloc m (b58_decode raw) [] in (m, NewAddressFromBytes_mem m s).
