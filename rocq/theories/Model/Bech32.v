(** Model of /repo/internal/bech32/bech32.go. *)
From Verif.Model Require Import Base.

(** Go's strings.ToLower / strings.ToUpper on strings that contain a non-ASCII byte use the Unicode
    tables, which are not modelled: the two functions are arbitrary parameters. On pure ASCII strings
    the mapping is the obvious one. *)
Class Unicode := {
  uni_lower : bytes -> bytes;
  uni_upper : bytes -> bytes
}.

Definition lower_byte (c : Z) : Z := if (65 <=? c) && (c <=? 90) then c + 32 else c.
Definition upper_byte (c : Z) : Z := if (97 <=? c) && (c <=? 122) then c - 32 else c.
Definition ascii_only (s : bytes) : bool := forallb (fun c => c <? 128) s.

(** strings.ToLower, strings.ToUpper (Go standard library). *)
Definition to_lower `{Unicode} (s : bytes) : bytes :=
  if ascii_only s then map lower_byte s else uni_lower s.
Definition to_upper `{Unicode} (s : bytes) : bytes :=
  if ascii_only s then map upper_byte s else uni_upper s.

Fixpoint bytes_eqb (a b : bytes) : bool :=
  match a, b with
  | [], [] => true
  | x :: a', y :: b' => (x =? y) && bytes_eqb a' b'
  | _, _ => false
  end.

(** bech32.go:12 *)
Definition charset : bytes := str "qpzry9x8gf2tvdw0s3jn54khce6mua7l".

(** bech32.go:14 *)
Definition generator : list Z := [0x3b6a57b2; 0x26508e6d; 0x1ea119fa; 0x3d4233dd; 0x2a1462b3].

(** bech32.go:18-28: the loop body of polymod, for one value. *)
Definition polymod_step (chk v : Z) : Z :=
  let top := Z.shiftr chk 25 in
  let chk1 := u32 (Z.shiftl (Z.land chk 0x1ffffff) 5) in
  let chk2 := Z.lxor chk1 v in
  fold_left
    (fun c (ig : Z * Z) =>
       let (i, g) := ig in
       if Z.land (Z.shiftr top i) 1 =? 1 then Z.lxor c g else c)
    (combine [0; 1; 2; 3; 4] generator) chk2.

(** bech32.go:16-30 *)
Definition polymod (values : bytes) : Z := fold_left polymod_step values 1.

(** bech32.go:32-43 *)
Definition hrpExpand `{Unicode} (hrp : bytes) : bytes :=
  let h := to_lower hrp in
  map (fun c => Z.shiftr c 5) h ++ [0] ++ map (fun c => Z.land c 31) h.

(** bech32.go:45-47 *)
Definition verifyChecksum `{Unicode} (hrp data : bytes) : bool :=
  polymod (hrpExpand hrp ++ data) =? 1.

(** bech32.go:49-59 *)
Definition createChecksum `{Unicode} (hrp data : bytes) : bytes :=
  let values := hrpExpand hrp ++ data ++ [0; 0; 0; 0; 0; 0] in
  let mod_ := Z.lxor (polymod values) 1 in
  map (fun p => Z.land (u8 (Z.shiftr mod_ (5 * (5 - p)))) 31) [0; 1; 2; 3; 4; 5].

(** bech32.go:72-75: the inner loop [for bits >= tobits]. Each iteration removes [tobits >= 1] from
    [bits < 16], so 16 iterations of fuel are never used up. *)
Fixpoint emit (fuel : nat) (acc bits tobits maxv : Z) (ret : bytes) : result (Z * bytes) :=
  match fuel with
  | O => Err EFuel
  | S fuel' =>
      if tobits <=? bits then
        let bits' := bits - tobits in
        emit fuel' acc bits' tobits maxv (ret ++ [Z.land (u8 (Z.shiftr acc bits')) maxv])
      else Ok (bits, ret)
  end.

(** bech32.go:66-76: the loop over the input. *)
Fixpoint convert_loop (data : bytes) (frombits tobits maxv acc bits : Z) (ret : bytes)
  : result (Z * Z * bytes) :=
  match data with
  | [] => Ok (acc, bits, ret)
  | value :: rest =>
      if negb (Z.shiftr value frombits =? 0) then Err EBech32Range else
      let acc' := Z.lor (u32 (Z.shiftl acc frombits)) value in
      do '(bits', ret') <- emit 17 acc' (u8 (bits + frombits)) tobits maxv ret;
      convert_loop rest frombits tobits maxv acc' bits' ret'
  end.

(** bech32.go:61-87 *)
Definition convertBits (data : bytes) (frombits tobits : Z) (pad : bool) : result bytes :=
  let maxv := u8 (Z.shiftl 1 tobits - 1) in
  do '(acc, bits, ret) <- convert_loop data frombits tobits maxv 0 0 [];
  let last := Z.land (u8 (u32 (Z.shiftl acc (tobits - bits)))) maxv in
  if pad then
    if 0 <? bits then Ok (ret ++ [last]) else Ok ret
  else if frombits <=? bits then Err EBech32ZeroPad
  else if negb (last =? 0) then Err EBech32NonZeroPad
  else Ok ret.

(** bech32.go:97-101 and 131-135: every character of the HRP must be in 33..126. A range loop over a
    string visits runes; the first non-ASCII byte starts a rune above 126, so checking bytes is the same. *)
Definition hrp_chars_ok (hrp : bytes) : bool := forallb (fun c => (33 <=? c) && (c <=? 126)) hrp.

(** bech32.go:110-115: [charset[p]] for each value. *)
Fixpoint to_chars (values : bytes) : result bytes :=
  match values with
  | [] => Ok []
  | p :: rest =>
      do c <- index charset (Z.to_nat p);
      do cs <- to_chars rest;
      Ok (c :: cs)
  end.

(** bech32.go:89-120 *)
Definition encode `{Unicode} (hrp data : bytes) : result bytes :=
  do values <- convertBits data 8 5 true;
  if (length hrp <? 1)%nat then Err EBech32HRP else
  if negb (hrp_chars_ok hrp) then Err EBech32HRPChar else
  if negb (bytes_eqb (to_upper hrp) hrp) && negb (bytes_eqb (to_lower hrp) hrp)
  then Err EBech32Mixed else
  let lower := bytes_eqb (to_lower hrp) hrp in
  let hrp' := to_lower hrp in
  do body <- to_chars values;
  do chk <- to_chars (createChecksum hrp' values);
  let ret := hrp' ++ str "1" ++ body ++ chk in
  if lower then Ok ret else Ok (to_upper ret).

(** strings.LastIndex(s, "1"): index of the last byte equal to '1' (49), if any. *)
Fixpoint last_index (s : bytes) (c : Z) : option nat :=
  match s with
  | [] => None
  | x :: rest =>
      match last_index rest c with
      | Some i => Some (S i)
      | None => if x =? c then Some O else None
      end
  end.

(** strings.IndexRune(charset, c) for one byte of the data part. A byte >= 128 starts a rune that does
    not occur in the (ASCII) charset, so -1 either way. *)
Fixpoint index_of (s : bytes) (c : Z) : option Z :=
  match s with
  | [] => None
  | x :: rest => if x =? c then Some 0 else
                 match index_of rest c with Some i => Some (i + 1) | None => None end
  end.

(** bech32.go:137-143 *)
Fixpoint from_chars (s : bytes) : result bytes :=
  match s with
  | [] => Ok []
  | c :: rest =>
      match index_of charset c with
      | None => Err EBech32Char
      | Some d => do ds <- from_chars rest; Ok (d :: ds)
      end
  end.

(** bech32.go:122-152. The loop at 137 stops at the first bad character; [from_chars] reports the same
    error whatever follows. [data[:len(data)-6]] is in range because pos+7 <= len(s) whenever the
    lower-cased string has the length of [s]; otherwise Go would panic, and so does the model. *)
Definition decode `{Unicode} (s : bytes) : result (bytes * bytes) :=
  if negb (bytes_eqb (to_lower s) s) && negb (bytes_eqb (to_upper s) s)
  then Err EBech32Mixed else
  match last_index s 49 with
  | None => Err EBech32Sep
  | Some pos =>
      if ((pos <? 1) || (length s <? pos + 7))%nat then Err EBech32Sep else
      let hrp := firstn pos s in
      if negb (hrp_chars_ok hrp) then Err EBech32HRPChar else
      let s' := to_lower s in
      do rest <- slice s' (pos + 1) (length s');
      do data <- from_chars rest;
      if negb (verifyChecksum hrp data) then Err EBech32Checksum else
      if (length data <? 6)%nat then Panic else
      do payload <- convertBits (firstn (length data - 6) data) 5 8 false;
      Ok (hrp, payload)
  end.
