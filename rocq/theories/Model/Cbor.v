(** Model of the part of github.com/fxamacker/cbor/v2 v2.4.0 that /repo uses, with the default
    EncOptions and DecOptions (cbor.Marshal, cbor.Unmarshal). The library is not in /repo. *)
From Verif.Model Require Import Base.

(** ** Encoding *)

(** Big-endian encoding in [k] bytes (encoding/binary PutUint16/32/64). *)
Fixpoint be_bytes (k : nat) (n : Z) : bytes :=
  match k with O => [] | S k' => be_bytes k' (n / 256) ++ [n mod 256] end.

(** encode.go encodeHead: initial byte with major type [t] and the shortest argument. *)
Definition enc_head (t n : Z) : bytes :=
  let tb := u8 (Z.shiftl t 5) in
  if n <=? 23 then [Z.lor tb n]
  else if n <=? 255 then Z.lor tb 24 :: be_bytes 1 n
  else if n <=? 65535 then Z.lor tb 25 :: be_bytes 2 n
  else if n <=? 4294967295 then Z.lor tb 26 :: be_bytes 4 n
  else Z.lor tb 27 :: be_bytes 8 n.

(** encode.go encodeUint, encodeByteString, encodeString, encodeBool, encodeNil; array, map and tag heads. *)
Definition enc_uint (n : Z) : bytes := enc_head 0 n.
Definition enc_nint (n : Z) : bytes := enc_head 1 n.        (* encodes -1-n *)
Definition enc_bytes (b : bytes) : bytes := enc_head 2 (zlen b) ++ b.
Definition enc_text (b : bytes) : bytes := enc_head 3 (zlen b) ++ b.
Definition enc_array_head (n : Z) : bytes := enc_head 4 n.
Definition enc_map_head (n : Z) : bytes := enc_head 5 n.
Definition enc_tag_head (n : Z) : bytes := enc_head 6 n.
Definition enc_bool (b : bool) : bytes := [if b then 0xf5 else 0xf4].
Definition enc_nil : bytes := [0xf6].
(** encode.go encodeFloat, encodeNaN, encodeInf: [bits] is the IEEE 754 pattern. With the default options a NaN is written as the
    half-precision NaN, an infinity as the half-precision infinity, anything else in its own width. *)
Definition enc_float (double : bool) (bits : Z) : bytes :=
  let width := if double then 52 else 23 in
  let top := if double then 2047 else 255 in
  if Z.land (Z.shiftr bits width) top =? top then
    if Z.land bits (2 ^ width - 1) =? 0 then (if Z.testbit bits (if double then 63 else 31) then [0xf9; 0xfc; 0] else [0xf9; 0x7c; 0])
    else [0xf9; 0x7e; 0]
  else if double then 0xfb :: be_bytes 8 bits else 0xfa :: be_bytes 4 bits.

(** ** Decoding *)

(** A decoded CBOR data item. *)
Inductive cval :=
| CUint (n : Z)
| CNint (n : Z)
| CBytes (b : bytes)
| CText (b : bytes)
| CArr (l : list cval)
| CMap (l : list (cval * cval))
| CTag (t : Z) (v : cval)
| CSimple (n : Z)            (* 20 false, 21 true, 22 null, 23 undefined *)
| CFloat (width : Z) (bits : Z).

(** The argument that follows an initial byte with additional information [ai]. *)
Definition parse_arg (ai : Z) (d : bytes) : option (Z * bytes) :=
  let take (k : nat) :=
    if (length d <? k)%nat then None
    else Some (fold_left (fun a b => a * 256 + b) (firstn k d) 0, skipn k d) in
  if ai <? 24 then Some (ai, d)
  else if ai =? 24 then take 1%nat
  else if ai =? 25 then take 2%nat
  else if ai =? 26 then take 4%nat
  else if ai =? 27 then take 8%nat
  else None.

Definition parse_string (n : Z) (d : bytes) : option (bytes * bytes) :=
  if zlen d <? n then None else Some (firstn (Z.to_nat n) d, skipn (Z.to_nat n) d).

(** Chunks of an indefinite-length string of major type [t]. *)
Fixpoint parse_chunks (fuel : nat) (t : Z) (d : bytes) : option (bytes * bytes) :=
  match fuel, d with
  | S f, ib :: d1 =>
      if ib =? 255 then Some ([], d1) else
      if negb (ib / 32 =? t) then None else
      match parse_arg (ib mod 32) d1 with
      | None => None
      | Some (n, d2) =>
          match parse_string n d2 with
          | None => None
          | Some (b, d3) =>
              match parse_chunks f t d3 with
              | None => None
              | Some (bs, d4) => Some (b ++ bs, d4)
              end
          end
      end
  | _, _ => None
  end.

(** valid.go and decode.go: one well-formed data item and the bytes after it. *)
Fixpoint parse (fuel : nat) (d : bytes) {struct fuel} : option (cval * bytes) :=
  match fuel, d with
  | S f, ib :: d1 =>
      let t := ib / 32 in
      let ai := ib mod 32 in
      if ai =? 31 then
        if t =? 2 then match parse_chunks f 2 d1 with Some (b, r) => Some (CBytes b, r) | None => None end
        else if t =? 3 then match parse_chunks f 3 d1 with Some (b, r) => Some (CText b, r) | None => None end
        else if t =? 4 then match parse_until f d1 with Some (l, r) => Some (CArr l, r) | None => None end
        else if t =? 5 then match parse_pairs_until f d1 with Some (l, r) => Some (CMap l, r) | None => None end
        else None
      else
      match parse_arg ai d1 with
      | None => None
      | Some (n, d2) =>
          if t =? 0 then Some (CUint n, d2)
          else if t =? 1 then Some (CNint n, d2)
          else if t =? 2 then match parse_string n d2 with Some (b, r) => Some (CBytes b, r) | None => None end
          else if t =? 3 then match parse_string n d2 with Some (b, r) => Some (CText b, r) | None => None end
          else if t =? 4 then match parse_list f n d2 with Some (l, r) => Some (CArr l, r) | None => None end
          else if t =? 5 then match parse_pairs f n d2 with Some (l, r) => Some (CMap l, r) | None => None end
          else if t =? 6 then match parse f d2 with Some (v, r) => Some (CTag n v, r) | None => None end
          else if ai <? 24 then Some (CSimple n, d2)
          else if ai =? 24 then if n <? 32 then None else Some (CSimple n, d2)
          else Some (CFloat (2 ^ (ai - 24)) n, d2)
      end
  | _, _ => None
  end
with parse_list (fuel : nat) (n : Z) (d : bytes) {struct fuel} : option (list cval * bytes) :=
  if n <=? 0 then Some ([], d) else
  match fuel with
  | O => None
  | S f =>
      match parse f d with
      | None => None
      | Some (v, d1) =>
          match parse_list f (n - 1) d1 with
          | None => None
          | Some (l, r) => Some (v :: l, r)
          end
      end
  end
with parse_pairs (fuel : nat) (n : Z) (d : bytes) {struct fuel} : option (list (cval * cval) * bytes) :=
  if n <=? 0 then Some ([], d) else
  match fuel with
  | O => None
  | S f =>
      match parse f d with
      | None => None
      | Some (k, d1) =>
          match parse f d1 with
          | None => None
          | Some (v, d2) =>
              match parse_pairs f (n - 1) d2 with
              | None => None
              | Some (l, r) => Some ((k, v) :: l, r)
              end
          end
      end
  end
with parse_until (fuel : nat) (d : bytes) {struct fuel} : option (list cval * bytes) :=
  match fuel, d with
  | S f, ib :: d0 =>
      if ib =? 255 then Some ([], d0) else
      match parse f d with
      | None => None
      | Some (v, d1) =>
          match parse_until f d1 with
          | None => None
          | Some (l, r) => Some (v :: l, r)
          end
      end
  | _, _ => None
  end
with parse_pairs_until (fuel : nat) (d : bytes) {struct fuel} : option (list (cval * cval) * bytes) :=
  match fuel, d with
  | S f, ib :: d0 =>
      if ib =? 255 then Some ([], d0) else
      match parse f d with
      | None => None
      | Some (k, d1) =>
          match parse f d1 with
          | None => None
          | Some (v, d2) =>
              match parse_pairs_until f d2 with
              | None => None
              | Some (l, r) => Some ((k, v) :: l, r)
              end
          end
      end
  | _, _ => None
  end.

Definition parse_item (d : bytes) : option cval :=
  match parse (2 * length d + 2) d with Some (v, _) => Some v | None => None end.

(** valid.go validInternal: the default limits MaxNestedLevels, MaxArrayElements and MaxMapPairs. Every array or map is
    one level; of tags directly inside one another all but one count. *)
Fixpoint limits_ok (depth : Z) (v : cval) : bool :=
  match v with
  | CArr l => (depth + 1 <=? 32) && (zlen l <=? 131072) && forallb (limits_ok (depth + 1)) l
  | CMap l => (depth + 1 <=? 32) && (zlen l <=? 131072) &&
              forallb (fun '(k, x) => limits_ok (depth + 1) k && limits_ok (depth + 1) x) l
  | CTag _ x => match x with
                | CTag _ _ => (depth + 1 <=? 32) && limits_ok (depth + 1) x
                | _ => limits_ok depth x
                end
  | _ => true
  end.

(** cbor.Unmarshal reads one well-formed item from the front of the data; in v2.4.0 bytes after it are
    not an error. *)
Definition read_item (d : bytes) : option cval :=
  match parse_item d with
  | Some v => if limits_ok 0 v then Some v else None
  | None => None
  end.

(** ** Storing a data item into a Go variable (decode.go parseToValue) *)

Definition is_nil (v : cval) : bool :=
  match v with CSimple n => (n =? 22) || (n =? 23) | _ => false end.

(** A bignum's value: big-endian. *)
Definition big_value (b : bytes) : Z := fold_left (fun a x => a * 256 + x) b 0.

(** Content that decode.go insists on for the built-in tags 0 to 3. *)
Definition builtin_tag_ok (t : Z) (v : cval) : bool :=
  if t =? 0 then match v with CText _ => true | _ => false end
  else if t =? 1 then match v with CUint _ | CNint _ | CFloat _ _ => true | _ => false end
  else if (t =? 2) || (t =? 3) then match v with CBytes _ => true | _ => false end
  else true.

(** into an unsigned integer variable with maximum [max]; null and undefined leave the zero value;
    tags other than 2 and 3 are skipped. *)
Fixpoint to_uint (max : Z) (v : cval) : option Z :=
  match v with
  | CUint n => if n <=? max then Some n else None
  | CSimple _ => if is_nil v then Some 0 else None
  | CTag t v' =>
      if negb (builtin_tag_ok t v') then None else
      if t =? 2 then
        match v' with CBytes b => if big_value b <=? max then Some (big_value b) else None | _ => None end
      else if t =? 3 then None
      else to_uint max v'
  | _ => None
  end.

Fixpoint all_some {A} (l : list (option A)) : option (list A) :=
  match l with
  | [] => Some []
  | Some x :: r => match all_some r with Some xs => Some (x :: xs) | None => None end
  | None :: _ => None
  end.

(** into a []byte variable (nil and empty are not distinguished). *)
Fixpoint to_byteslice (v : cval) : option bytes :=
  match v with
  | CBytes b => Some b
  | CSimple _ => if is_nil v then Some [] else None
  | CArr l => all_some (map (to_uint 255) l)
  | CTag t v' =>
      if negb (builtin_tag_ok t v') then None else
      if t =? 3 then None else to_byteslice v'
  | _ => None
  end.

(** into a *uint8 variable. *)
Definition to_uint8_ptr (v : cval) : option (option Z) :=
  if is_nil v then Some None else
  match to_uint 255 v with Some n => Some (Some n) | None => None end.

(** decode.go parseToValue, into a struct: tags are skipped, but the built-in tags 0 to 3 never have an array, a map
    or null as content. *)
Fixpoint strip_tags (v : cval) : cval :=
  match v with CTag t v' => if (0 <=? t) && (t <=? 3) then v else strip_tags v' | _ => v end.

(** decode.go parseToValue and parse: the tag of self-described CBOR is skipped before anything else. *)
Fixpoint strip_self (v : cval) : cval :=
  match v with CTag t v' => if t =? 55799 then strip_self v' else v | _ => v end.
