(** Model of /repo/address. *)
From Verif.Model Require Import Base Utf8 Bech32 Hex Base58 Crc32 Cbor Network.

(** stake_credential.go:3-27. Kind is a byte: 0 key, 1 script. *)
Record StakeCredential := { Kind : Z; Payload : bytes }.
Definition NewKeyStakeCredential (hash : bytes) := {| Kind := 0; Payload := hash |}.
Definition NewScriptStakeCredential (hash : bytes) := {| Kind := 1; Payload := hash |}.

(** base.go:12-16, enterprise.go:11-14, reward.go:11-14, pointer.go:12-23 *)
Record BaseAddress := { ba_net : NetworkInfo; ba_pay : StakeCredential; ba_stake : StakeCredential }.
Record EnterpriseAddress := { ea_net : NetworkInfo; ea_pay : StakeCredential }.
Record RewardAddress := { ra_net : NetworkInfo; ra_stake : StakeCredential }.
Record StakePointer := { Slot : Z; TxIndex : Z; CertIndex : Z }.
Record PointerAddress := { pa_net : NetworkInfo; pa_pay : StakeCredential; pa_ptr : StakePointer }.

(** base.go:71-77 *)
Definition NewBaseAddress (network : NetworkInfo) (payment stake : StakeCredential) : BaseAddress :=
  {| ba_net := network; ba_pay := payment; ba_stake := stake |}.
(** enterprise.go:49-54 *)
Definition NewEnterpriseAddress (network : NetworkInfo) (payment : StakeCredential) : EnterpriseAddress :=
  {| ea_net := network; ea_pay := payment |}.
(** reward.go:50-55 *)
Definition NewRewardAddress (net : NetworkInfo) (stake : StakeCredential) : RewardAddress :=
  {| ra_net := net; ra_stake := stake |}.
(** pointer.go:97-103 *)
Definition NewPointer (slot txIndex certIndex : Z) : StakePointer :=
  {| Slot := slot; TxIndex := txIndex; CertIndex := certIndex |}.
(** pointer.go:106-112 *)
Definition NewPointerAddress (net : NetworkInfo) (payment : StakeCredential) (stake : StakePointer) : PointerAddress :=
  {| pa_net := net; pa_pay := payment; pa_ptr := stake |}.

(** byron.go:17-26. Network is a *uint8. nil and empty slices are not distinguished. *)
Record ByronAddress := { by_hash : bytes; by_payload : bytes; by_network : option Z; by_tag : Z }.

(** The implementations of the interface address.go:19-30. *)
Inductive Address :=
| ABase (a : BaseAddress)
| AEnterprise (a : EnterpriseAddress)
| AReward (a : RewardAddress)
| APointer (a : PointerAddress)
| AByron (a : ByronAddress).

(** ** Serialization *)

(** base.go:19-25 *)
Definition base_bytes (b : BaseAddress) : bytes :=
  let buf := repeat 0 57 in
  let header := Z.lor (Z.lor (u8 (Z.shiftl (Kind (ba_pay b)) 4)) (u8 (Z.shiftl (Kind (ba_stake b)) 5)))
                      (Z.land (NetworkId (ba_net b)) 0xf) in
  let buf := copy_at buf 0 1 [header] in
  let buf := copy_at buf 1 29 (Payload (ba_pay b)) in
  copy_at buf 29 57 (Payload (ba_stake b)).

(** enterprise.go:17-22 *)
Definition enterprise_bytes (e : EnterpriseAddress) : bytes :=
  let buf := repeat 0 29 in
  let header := Z.lor (Z.lor 0x60 (u8 (Z.shiftl (Kind (ea_pay e)) 4))) (Z.land (NetworkId (ea_net e)) 0xf) in
  let buf := copy_at buf 0 1 [header] in
  copy_at buf 1 29 (Payload (ea_pay e)).

(** reward.go:17-22 *)
Definition reward_bytes (r : RewardAddress) : bytes :=
  let buf := repeat 0 29 in
  let header := Z.lor (Z.lor 0xe0 (u8 (Z.shiftl (Kind (ra_stake r)) 4))) (Z.land (NetworkId (ra_net r)) 0xf) in
  let buf := copy_at buf 0 1 [header] in
  copy_at buf 1 29 (Payload (ra_stake r)).

(** pointer.go:29-32: the loop, appending to [output]; a uint64 has at most ten 7-bit groups. *)
Fixpoint varnat_loop (fuel : nat) (num : Z) (output : bytes) : bytes :=
  match fuel with
  | O => output
  | S f => if 0 <? num
           then varnat_loop f (num / 128) (output ++ [Z.lor (Z.land (u8 num) 0x7f) 0x80])
           else output
  end.

(** pointer.go:25-35 (reverseAny, 51-57, is list reversal) *)
Definition VariableNatEncode (num : Z) : bytes :=
  rev (varnat_loop 10 (num / 128) [Z.land (u8 num) 0x7f]).

(** pointer.go:41-47 *)
Fixpoint varnat_decode_loop (raw : bytes) (output bytes_read : Z) : result (Z * Z) :=
  match raw with
  | [] => Err EVarNat
  | rbyte :: rest =>
      let output' := Z.lor (u64 (Z.shiftl output 7)) (Z.land rbyte 0x7f) in
      if Z.land rbyte 0x80 =? 0 then Ok (output', bytes_read + 1)
      else varnat_decode_loop rest output' (bytes_read + 1)
  end.

(** pointer.go:37-49 *)
Definition VariableNatDecode (raw : bytes) : result (Z * Z) := varnat_decode_loop raw 0 0.

(** pointer.go:65-75 *)
Definition pointer_bytes (p : PointerAddress) : bytes :=
  let header := Z.lor (Z.lor 0x40 (u8 (Z.shiftl (Kind (pa_pay p)) 4))) (Z.land (NetworkId (pa_net p)) 0xf) in
  [header] ++ Payload (pa_pay p) ++ VariableNatEncode (Slot (pa_ptr p))
    ++ VariableNatEncode (TxIndex (pa_ptr p)) ++ VariableNatEncode (CertIndex (pa_ptr p)).

(** byron.go:49: cbor.Marshal([]interface{}{b.Hash, b.Attributes, b.Tag}); the attributes are a map with
    integer keys and omitempty fields (byron.go:18-19). *)
Definition byron_raw (b : ByronAddress) : bytes :=
  let pl := match by_payload b with [] => [] | p => enc_uint 1 ++ enc_bytes p end in
  let nw := match by_network b with None => [] | Some n => enc_uint 2 ++ enc_uint n end in
  let count := (match by_payload b with [] => 0 | _ => 1 end)
               + (match by_network b with None => 0 | Some _ => 1 end) in
  enc_array_head 3 ++ enc_bytes (by_hash b) ++ (enc_map_head count ++ pl ++ nw) ++ enc_uint (by_tag b).

(** byron.go:48-57 and 29-32 (none of the marshalled values can fail) *)
Definition byron_bytes (b : ByronAddress) : bytes :=
  let raw := byron_raw b in
  enc_array_head 2 ++ (enc_tag_head 24 ++ enc_bytes raw) ++ enc_uint (crc32 raw).

(** The Bytes method of the interface. *)
Definition addr_bytes (a : Address) : bytes :=
  match a with
  | ABase b => base_bytes b
  | AEnterprise e => enterprise_bytes e
  | AReward r => reward_bytes r
  | APointer p => pointer_bytes p
  | AByron b => byron_bytes b
  end.

(** The MarshalCBOR methods: base.go:48, enterprise.go:44, pointer.go:60 marshal the bytes;
    reward.go:32-34 marshals the method value [r.Bytes], and cbor.Marshal of a func is an
    UnsupportedTypeError; byron.go:48. *)
Definition addr_marshal (a : Address) : result bytes :=
  match a with
  | ABase b => Ok (enc_bytes (base_bytes b))
  | AEnterprise e => Ok (enc_bytes (enterprise_bytes e))
  | AReward _ => Err ECborEncode
  | APointer p => Ok (enc_bytes (pointer_bytes p))
  | AByron b => Ok (byron_bytes b)
  end.

(** ** Text *)

(** base.go:40-45, enterprise.go:36-41 *)
Definition addr_prefix (n : NetworkInfo) : bytes :=
  if NetworkId n =? NetworkId TestNet then str "addr_test" else str "addr".
(** reward.go:42-47 *)
Definition stake_prefix (n : NetworkInfo) : bytes :=
  if NetworkId n =? NetworkId TestNet then str "stake_test" else str "stake".
(** pointer.go:84-89: compares the whole struct *)
Definition pointer_prefix (n : NetworkInfo) : bytes :=
  if net_eqb n TestNet then str "addr_test" else str "addr".

(** The Prefix methods: base.go:40, enterprise.go:36, reward.go:42, pointer.go:84, byron.go:108. *)
Definition addr_Prefix (a : Address) : bytes :=
  match a with
  | ABase b => addr_prefix (ba_net b)
  | AEnterprise e => addr_prefix (ea_net e)
  | AReward r => stake_prefix (ra_net r)
  | APointer p => pointer_prefix (pa_net p)
  | AByron _ => []
  end.

(** btcutil v1.0.2 bech32.Encode, used by pointer.go:79: the data are taken to be 5-bit groups already;
    a byte of 32 or more is an error. The prefixes passed are lower case. *)
Definition btc_bech32_encode `{Unicode} (hrp data : bytes) : result bytes :=
  let combined := data ++ createChecksum hrp data in
  if forallb (fun b => b <? 32) combined
  then do cs <- to_chars combined; Ok (hrp ++ str "1" ++ cs)
  else Err EBtcBech32Byte.

(** [str, _ := ...]: both Encode functions return "" with an error. *)
Definition str_or_empty (r : result bytes) : result bytes :=
  match r with Ok s => Ok s | Err _ => Ok [] | Panic => Panic end.

(** The String methods: base.go:28, enterprise.go:25, reward.go:25, pointer.go:78, byron.go:35. *)
Definition addr_string `{Unicode} (a : Address) : result bytes :=
  match a with
  | ABase b => str_or_empty (encode (addr_prefix (ba_net b)) (base_bytes b))
  | AEnterprise e => str_or_empty (encode (addr_prefix (ea_net e)) (enterprise_bytes e))
  | AReward r => str_or_empty (encode (stake_prefix (ra_net r)) (reward_bytes r))
  | APointer p => str_or_empty (btc_bech32_encode (pointer_prefix (pa_net p)) (pointer_bytes p))
  | AByron b => Ok (b58_encode (byron_bytes b))
  end.

(** The NetworkInfo methods: base.go:35, enterprise.go:31, reward.go:37, pointer.go:92, byron.go:40-45. *)
Definition addr_network (a : Address) : NetworkInfo :=
  match a with
  | ABase b => ba_net b
  | AEnterprise e => ea_net e
  | AReward r => ra_net r
  | APointer p => pa_net p
  | AByron b => match by_network b with None => MainNet | Some _ => TestNet end
  end.

(** ** Projections *)

(** base.go:53-59 *)
Definition ToEnterprise (b : BaseAddress) : EnterpriseAddress :=
  NewEnterpriseAddress (ba_net b) (ba_pay b).
(** base.go:62-68 *)
Definition ToReward (b : BaseAddress) : RewardAddress :=
  NewRewardAddress (ba_net b) (ba_stake b).

(** ** Parsing *)

(** byron.go:17-20 as the target of cbor.Unmarshal: a map (null leaves the zero value). Which field a key names, 0 for
    none; None is an error. decode.go parseMapToStruct compares int64 values, a negative number being -1 xor its
    argument, and compares text (which must be UTF-8) with the names in the struct tags, here "1" and "2". *)
Definition attr_field (k : cval) : option Z :=
  match k with
  | CUint n => Some (if (n =? 1) || (n =? 2) then n else 0)
  | CNint n => let m := 2 ^ 64 - 1 - n in Some (if (m =? 1) || (m =? 2) then m else 0)
  | CText s => if utf8_valid s then Some (if bytes_eqb s (str "1") then 1 else if bytes_eqb s (str "2") then 2 else 0) else None
  | _ => None
  end.
(** The first of several keys naming a field wins; keys naming none are ignored. *)
Fixpoint attrs_of_pairs (l : list (cval * cval)) (pl : option bytes) (nw : option (option Z))
  : option (bytes * option Z) :=
  match l with
  | [] => Some (match pl with Some p => p | None => [] end, match nw with Some n => n | None => None end)
  | (k, v) :: r =>
      match attr_field k with
      | None => None
      | Some f =>
          if f =? 1 then
            match pl with
            | Some _ => attrs_of_pairs r pl nw
            | None => match to_byteslice v with
                      | Some b => attrs_of_pairs r (Some b) nw | None => None end
            end
          else if f =? 2 then
            match nw with
            | Some _ => attrs_of_pairs r pl nw
            | None => match to_uint8_ptr v with
                      | Some n => attrs_of_pairs r pl (Some n) | None => None end
            end
          else attrs_of_pairs r pl nw
      end
  end.

Definition to_attrs (v : cval) : option (bytes * option Z) :=
  match strip_tags v with
  | CMap l => attrs_of_pairs l None None
  | CSimple n => if (n =? 22) || (n =? 23) then Some ([], None) else None
  | _ => None
  end.

(** byron.go:60-105. The top-level item starts with a byte 0x80..0x8f here, hence is an array. A tag whose content is
    no byte string and cannot be read either gives another error than here. *)
Definition byron_unmarshal (data : bytes) : result ByronAddress :=
  match read_item data with
  | Some (CArr [vtag; vsum]) =>
      (* a cbor.Tag variable: a tag item, or null/undefined which leave Tag{0, nil} *)
      let tag := match strip_self vtag with
                 | CTag n c => Some (n, Some (strip_self c))
                 | v => if is_nil v then Some (0, None) else None
                 end in
      match tag, to_uint 4294967295 vsum with
      | Some (num, content), Some checksum =>
          match content with
          | Some (CBytes raw) =>
              if negb (num =? 24) then Err EByronInvalid else
              if negb (checksum =? crc32 raw) then Err EByronChecksum else
              match read_item raw with
              | Some v =>
                  match strip_tags v with
                  | CArr [vh; va; vt] =>
                      match to_byteslice vh, to_attrs va, to_uint (2 ^ 64 - 1) vt with
                      | Some h, Some (p, n), Some t =>
                          if negb (length h =? 28)%nat || negb (t =? 0) then Err EByronContent
                          else Ok {| by_hash := h; by_payload := p; by_network := n; by_tag := t |}
                      | _, _, _ => Err ECborDecode
                      end
                  | CSimple n => if (n =? 22) || (n =? 23) then Err EByronContent else Err ECborDecode
                  | _ => Err ECborDecode
                  end
              | None => Err ECborDecode
              end
          | _ => Err EByronInvalid
          end
      | _, _ => Err ECborDecode
      end
  | _ => Err ECborDecode
  end.

(** What lies between the length and the capacity of a byte slice. A Go slice expression is bounded by
    the capacity, not the length, and address.go:156 slices without checking the length, so the spare
    bytes are observable. [append_spare n]: after building n bytes by repeated one-byte append from nil
    (bech32.go:62,74). [hex_spare s]: behind the result of hex.DecodeString(s). *)
Class Runtime := {
  append_spare : nat -> bytes;
  hex_spare : bytes -> bytes
}.

(** Go 1.17, the version of go.mod, on 64-bit platforms. runtime.growslice doubles the capacity from 8
    (exact up to 256 elements, also in later versions; no modelled function depends on the spare bytes
    of longer slices) and clears it. *)
Definition append_cap (n : nat) : nat :=
  if (n =? 0)%nat then 0%nat else Nat.pow 2 (Nat.max 3 (Nat.log2_up n)).

(** runtime/sizeclasses.go, the classes up to 128 bytes. *)
Definition round_size (n : nat) : nat :=
  hd n (filter (fun c => (n <=? c)%nat) [0; 8; 16; 24; 32; 48; 64; 80; 96; 112; 128]%nat).

(** encoding/hex DecodeString: [src := []byte(s); n, err := Decode(src, src); return src[:n], err]: the
    second half of the text is still in the backing array, followed by the cleared rest of the size class. *)
Definition go117 : Runtime := {|
  append_spare n := repeat 0 (append_cap n - n);
  hex_spare s := skipn (Nat.div (length s) 2) s ++ repeat 0 (round_size (length s) - length s)
|}.

(** address.go:155-166. [spare] is what lies behind [data] in its backing array. *)
Definition readAddrCred (data spare : bytes) (header bit : Z) (pos : nat) : result StakeCredential :=
  do hashBytes <- slice (data ++ spare) pos (pos + 28);
  if Z.land header (u8 (Z.shiftl 1 bit)) =? 0
  then Ok (NewKeyStakeCredential hashBytes)
  else Ok (NewScriptStakeCredential hashBytes).

(** address.go:61-64: the map lookup [networks[netId]], zero value when absent. *)
Definition networks (netId : Z) : NetworkInfo :=
  if netId =? 1 then MainNet else if netId =? 0 then TestNet else ZeroNet.

(** address.go:57-153. When the Byron branch fails the Go function returns a non-nil address with the
    error; only the error is modelled. The result shares memory with [data] (see C64). *)
Definition NewAddressFromBytes (data spare : bytes) : result Address :=
  do header <- index data 0;
  let netId := Z.land header 0x0f in
  let kind := Z.shiftr (Z.land header 0xf0) 4 in
  if kind =? 8 then
    do b <- byron_unmarshal data; Ok (AByron b)
  else if (kind =? 0) || (kind =? 1) || (kind =? 2) || (kind =? 3) then
    do pay <- readAddrCred data spare header 4 1;
    do stk <- readAddrCred data spare header 5 29;
    Ok (ABase {| ba_net := networks netId; ba_pay := pay; ba_stake := stk |})
  else if (kind =? 4) || (kind =? 5) then
    if (length data <? 32)%nat then Err ENotEnough else
    do pay <- readAddrCred data spare header 4 1;
    do '(slot, n1) <- VariableNatDecode (skipn 29 data);
    do '(txi, n2) <- VariableNatDecode (skipn (29 + Z.to_nat n1) data);
    do '(cert, n3) <- VariableNatDecode (skipn (29 + Z.to_nat n1 + Z.to_nat n2) data);
    if (29 + Z.to_nat n1 + Z.to_nat n2 + Z.to_nat n3 <? length data)%nat then Err ETrailing
    else Ok (APointer (NewPointerAddress (networks netId) pay (NewPointer slot txi cert)))
  else if (kind =? 6) || (kind =? 7) then
    if (length data <? 29)%nat then Err ENotEnough else
    if (29 <? length data)%nat then Err ETrailing else
    do pay <- readAddrCred data spare header 4 1;
    Ok (AEnterprise (NewEnterpriseAddress (networks netId) pay))
  else if (kind =? 14) || (kind =? 15) then
    if (length data <? 29)%nat then Err ENotEnough else
    if (29 <? length data)%nat then Err ETrailing else
    do stk <- readAddrCred data spare header 4 1;
    Ok (AReward (NewRewardAddress (networks netId) stk))
  else Err EUnsupported.

(** strings.HasPrefix *)
Fixpoint has_prefix (s p : bytes) : bool :=
  match p, s with
  | [], _ => true
  | y :: p', x :: s' => (x =? y) && has_prefix s' p'
  | _ :: _, [] => false
  end.

(** address.go:32-46. base58.Decode returns a slice made with its exact length. *)
Definition NewAddress `{Unicode} `{Runtime} (raw : bytes) : result Address :=
  if has_prefix raw (str "addr") || has_prefix raw (str "stake") then
    do '(_, data) <- decode raw;
    NewAddressFromBytes data (append_spare (length data))
  else NewAddressFromBytes (b58_decode raw) [].

(** address.go:48-55 *)
Definition NewAddressFromHex `{Runtime} (hexAddr : bytes) : result Address :=
  do data <- hex_decode hexAddr;
  NewAddressFromBytes data (hex_spare hexAddr).
