(** Model of github.com/tyler-smith/go-bip39 v1.1.0 (NewMnemonic, EntropyFromMnemonic), which the examples use, and of the two programs
    examples/address/generate/main.go and examples/address/restore/main.go around it. The library is not in /repo; this follows its source.
    The word list is an argument; which of its errors the library returns is not modelled. *)
From Verif.Model Require Import Base Bech32 Base58 Network Address Bip32 Wallet Node.
Open Scope Z_scope.

Section Mnemonic.
Context {H : Hashes} {U : Unicode}.
Variable words : list bytes.

(** bip39.go padByteSlice *)
Definition padByteSlice (l : bytes) (n : nat) : bytes := repeat 0 (n - length l) ++ l.
(** bip39.go addChecksum: the loop appends the first bits of the hash one by one; the result's Bytes() drops leading zeros. *)
Fixpoint add_bits (n : nat) (i first v : Z) : Z :=
  match n with
  | O => v
  | S n => add_bits n (i + 1) first (let v := v * 2 in if 0 <? Z.land first (Z.shiftl 1 (7 - i)) then Z.lor v 1 else v)
  end.
Definition addChecksum (data : bytes) : bytes := digits 256 (add_bits (length data / 4) 0 (nth 0 (sha256 data) 0) (be_value 256 data)).
(** bip39.go NewMnemonic: the words from the last to the first *)
Fixpoint take_words (n : nat) (v : Z) (acc : list bytes) : list bytes :=
  match n with
  | O => acc
  | S n => take_words n (v / 2048) (nth (Z.to_nat (be_value 256 (padByteSlice (digits 256 (Z.land v 2047)) 2))) words [] :: acc)
  end.
(** strings.Join(words, " ") *)
Fixpoint join_space (l : list bytes) : bytes :=
  match l with [] => [] | [w] => w | w :: r => w ++ 32 :: join_space r end.
Definition NewMnemonic (entropy : bytes) : option bytes :=
  let bitSize := zlen entropy * 8 in
  if negb (bitSize mod 32 =? 0) || (bitSize <? 128) || (256 <? bitSize) then None
  else let n := Z.to_nat ((bitSize + bitSize / 32) / 11) in
       Some (join_space (take_words n (be_value 256 (addChecksum entropy)) [])).

(** wordMap: the number of a word *)
Fixpoint index_word (l : list bytes) (w : bytes) (i : Z) : option Z :=
  match l with [] => None | x :: r => if bytes_eqb x w then Some i else index_word r w (i + 1) end.
(** bip39.go wordLengthChecksumMasksMapping and wordLengthChecksumShiftMapping *)
Definition checksum_mask (n : Z) : option Z :=
  if n =? 12 then Some 15 else if n =? 15 then Some 31 else if n =? 18 then Some 63 else if n =? 21 then Some 127 else if n =? 24 then Some 255 else None.
Definition checksum_shift (n : Z) : Z := if n =? 12 then 16 else if n =? 15 then 8 else if n =? 18 then 4 else if n =? 21 then 2 else 1.
Fixpoint gather (l : list bytes) (b : Z) : option Z :=
  match l with
  | [] => Some b
  | w :: r => match index_word words w 0 with None => None | Some i => gather r (Z.lor (b * 2048) i) end
  end.
(** bip39.go EntropyFromMnemonic *)
Definition EntropyFromMnemonic (mnemonic : bytes) : option bytes :=
  let l := fields mnemonic in
  match checksum_mask (zlen l) with
  | None => None
  | Some mask =>
      match gather l 0 with
      | None => None
      | Some b =>
          let checksum := Z.land b mask in
          let entropy := padByteSlice (digits 256 (b / (mask + 1))) (length l / 3 * 4) in
          if checksum =? nth 0 (sha256 entropy) 0 / checksum_shift (zlen l) then Some entropy else None
      end
  end.

(** strings.Split(s, " "), the number of parts *)
Fixpoint split_spaces (s : bytes) : list bytes :=
  match s with
  | [] => [[]]
  | c :: r => if c =? 32 then [] :: split_spaces r
              else match split_spaces r with l :: ls => (c :: l) :: ls | [] => [[c]] end
  end.

(** generate/main.go:17-50 for a given entropy of 256 bits: mnemonic, address text and signature as they are logged (errors of
    NewMnemonic are dropped, 19). *)
Definition generate_main (entropy : bytes) : result (bytes * bytes * bytes) :=
  let mnemonic := match NewMnemonic entropy with Some m => m | None => [] end in
  do rootKey <- FromBip39Entropy entropy [];
  do ' (addr, _) <- generateBaseAddress MainNet rootKey;
  do text <- addr_string (ABase addr);
  do account <- accountKey rootKey;
  do sign <- Sign account (str "Hello There");
  Ok (mnemonic, text, sign).

Inductive Restored := Fatal | Printed (out : bytes).
(** restore/main.go:30-47 and 106-135; log.Fatal ends the program. *)
Definition restore_main (mnemFlag : bytes) (addrTypeFlag : Z) (networkFlag : bytes) : result Restored :=
  if bytes_eqb mnemFlag [] then Ok Fatal
  else if negb (zlen (split_spaces mnemFlag) =? 24) then Ok Fatal
  else
    match (if bytes_eqb networkFlag (str "mainnet") then Some MainNet else if bytes_eqb networkFlag (str "testnet") then Some TestNet else None) with
    | None => Ok Fatal
    | Some net =>
        if addrTypeFlag =? 0 then
          match EntropyFromMnemonic mnemFlag with
          | None => Ok Fatal
          | Some entropy =>
              do addr <- generateEnterprise net entropy;
              do text <- addr_string (AEnterprise addr);
              Ok (Printed (str "Enterprise Address: " ++ text))
          end
        else if addrTypeFlag =? 1 then
          match EntropyFromMnemonic mnemFlag with
          | None => Ok Fatal
          | Some entropy =>
              do addr <- restoreBaseAddress net entropy;
              do text <- addr_string (ABase addr);
              Ok (Printed (str "Base Address: " ++ text))
          end
        else Ok (Printed [])
    end.
End Mnemonic.
