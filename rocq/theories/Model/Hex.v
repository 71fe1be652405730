(** Model of the Go standard library's encoding/hex, as used by address.go:48-55 (NewAddressFromHex),
    tx/tx_input.go (NewTxInput) and tx/tx.go (Tx.Hex). *)
From Verif.Model Require Import Base.

(** encoding/hex fromHexChar *)
Definition from_hex_char (c : Z) : option Z :=
  if (48 <=? c) && (c <=? 57) then Some (c - 48)
  else if (97 <=? c) && (c <=? 102) then Some (c - 97 + 10)
  else if (65 <=? c) && (c <=? 70) then Some (c - 65 + 10)
  else None.

(** encoding/hex Decode: the bytes decoded before the first problem, and the error if any. A trailing
    odd character is an InvalidByteError when it is not a hex digit, ErrLength otherwise. *)
Fixpoint hex_decode_prefix (s : bytes) : bytes * option goerror :=
  match s with
  | [] => ([], None)
  | [a] => ([], Some (match from_hex_char a with None => EHexByte | Some _ => EHexLength end))
  | a :: b :: rest =>
      match from_hex_char a, from_hex_char b with
      | Some x, Some y =>
          let (l, e) := hex_decode_prefix rest in
          (Z.lor (u8 (Z.shiftl x 4)) y :: l, e)
      | _, _ => ([], Some EHexByte)
      end
  end.

(** hex.DecodeString, when the error is looked at. *)
Definition hex_decode (s : bytes) : result bytes :=
  match hex_decode_prefix s with
  | (l, None) => Ok l
  | (_, Some e) => Err e
  end.

(** encoding/hex hextable and EncodeToString *)
Definition hextable : bytes := str "0123456789abcdef".
Definition hex_encode (b : bytes) : bytes :=
  flat_map (fun v => [nth (Z.to_nat (Z.shiftr v 4)) hextable 0;
                      nth (Z.to_nat (Z.land v 15)) hextable 0]) b.
