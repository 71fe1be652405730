(** Model of encoding/json (Go 1.17, the version in /repo/go.mod) for the types the repository decodes: Protocol
    (protocol/protocol.go:8-30), NetworkTip (node/types.go:4-8), and the envelope cardano-cli.go:106-123 writes.
    The scanner's state machine is written as a recursive-descent parser with the same language; of an error only the
    class is kept. *)
From Verif.Model Require Import Base Bech32 Hex Network Tx Node.
From Verif.Model Require Export Utf8.
Open Scope Z_scope.

(** A scanned document. Strings and numbers are kept as written: the decoder works on the tokens. *)
Inductive jvalue :=
| JNull
| JBool (b : bool)
| JNum (tok : bytes)
| JStr (raw : bytes)
| JArr (l : list jvalue)
| JObj (m : list (bytes * jvalue)).

(** ** scanner.go *)

(** scanner.go isSpace *)
Definition js_space (c : Z) : bool := (c =? 32) || (c =? 9) || (c =? 13) || (c =? 10).
Fixpoint skip_ws (s : bytes) : bytes :=
  match s with
  | c :: r => if js_space c then skip_ws r else s
  | [] => []
  end.

Fixpoint span_digits (s : bytes) : bytes * bytes :=
  match s with
  | c :: r => if is_digit c then let '(d, t) := span_digits r in (c :: d, t) else ([], s)
  | [] => ([], [])
  end.
(** stateNeg, state0, state1: one zero, or digits that do not start with zero *)
Definition scan_int (s : bytes) : option (bytes * bytes) :=
  match s with
  | c :: r => if c =? 48 then Some ([48], r)
              else if is_digit c then Some (span_digits s) else None
  | [] => None
  end.
(** stateDot, stateDot0 *)
Definition scan_frac (s : bytes) : option (bytes * bytes) :=
  match s with
  | c :: r => if c =? 46 then match span_digits r with
                              | ([], _) => None
                              | (d, t) => Some (c :: d, t)
                              end
              else Some ([], s)
  | [] => Some ([], s)
  end.
(** stateE, stateESign, stateE0 *)
Definition scan_exp (s : bytes) : option (bytes * bytes) :=
  match s with
  | e :: r =>
      if (e =? 101) || (e =? 69) then
        let '(sg, r1) := match r with c :: r' => if (c =? 43) || (c =? 45) then ([c], r') else ([], r) | [] => ([], r) end in
        match span_digits r1 with
        | ([], _) => None
        | (d, t) => Some (e :: sg ++ d, t)
        end
      else Some ([], s)
  | [] => Some ([], s)
  end.
(** scanner.go stateBeginValue on '-' or a digit, up to the end of the number *)
Definition scan_number (s : bytes) : option (bytes * bytes) :=
  let '(sg, s1) := match s with c :: r => if c =? 45 then ([c], r) else ([], s) | [] => ([], s) end in
  match scan_int s1 with
  | None => None
  | Some (i, s2) =>
      match scan_frac s2 with
      | None => None
      | Some (f, s3) =>
          match scan_exp s3 with
          | None => None
          | Some (e, s4) => Some (sg ++ i ++ f ++ e, s4)
          end
      end
  end.

Definition is_hex (c : Z) : bool := is_digit c || ((97 <=? c) && (c <=? 102)) || ((65 <=? c) && (c <=? 70)).
(** stateInStringEsc: b f n r t, backslash, slash, quote *)
Definition is_escape (c : Z) : bool :=
  (c =? 98) || (c =? 102) || (c =? 110) || (c =? 114) || (c =? 116) || (c =? 92) || (c =? 47) || (c =? 34).
(** stateInString, stateInStringEsc, stateInStringEscU*: from after the opening quote; the text up to the closing one *)
Fixpoint scan_string (s : bytes) : option (bytes * bytes) :=
  match s with
  | [] => None
  | c :: r =>
      if c =? 34 then Some ([], r)
      else if c =? 92 then
        match r with
        | [] => None
        | e :: r1 =>
            if is_escape e then
              match scan_string r1 with Some (x, t) => Some (c :: e :: x, t) | None => None end
            else if e =? 117 then
              match r1 with
              | h1 :: h2 :: h3 :: h4 :: r2 =>
                  if is_hex h1 && is_hex h2 && is_hex h3 && is_hex h4 then
                    match scan_string r2 with Some (x, t) => Some (c :: e :: h1 :: h2 :: h3 :: h4 :: x, t) | None => None end
                  else None
              | _ => None
              end
            else None
        end
      else if c <? 32 then None
      else match scan_string r with Some (x, t) => Some (c :: x, t) | None => None end
  end.

(** stateT, stateTr, ..., stateNul: the rest after a literal *)
Fixpoint strip (p s : bytes) : option bytes :=
  match p, s with
  | [], _ => Some s
  | a :: p', b :: s' => if a =? b then strip p' s' else None
  | _, [] => None
  end.

(** stateBeginValue and the states after it. [d] is the nesting still allowed (scanner.go, maxNestingDepth). *)
Fixpoint parse_value (fuel : nat) (d : Z) (s : bytes) : option (jvalue * bytes) :=
  match fuel with
  | O => None
  | S f =>
      match s with
      | [] => None
      | c :: r =>
          if c =? 123 then
            if d <=? 0 then None
            else match skip_ws r with
                 | [] => None
                 | c1 :: r1 => if c1 =? 125 then Some (JObj [], r1)
                               else match parse_members f (d - 1) (c1 :: r1) with
                                    | Some (m, t) => Some (JObj m, t)
                                    | None => None
                                    end
                 end
          else if c =? 91 then
            if d <=? 0 then None
            else match skip_ws r with
                 | [] => None
                 | c1 :: r1 => if c1 =? 93 then Some (JArr [], r1)
                               else match parse_elements f (d - 1) (c1 :: r1) with
                                    | Some (l, t) => Some (JArr l, t)
                                    | None => None
                                    end
                 end
          else if c =? 34 then
            match scan_string r with Some (x, t) => Some (JStr x, t) | None => None end
          else if c =? 116 then
            match strip (str "true") s with Some t => Some (JBool true, t) | None => None end
          else if c =? 102 then
            match strip (str "false") s with Some t => Some (JBool false, t) | None => None end
          else if c =? 110 then
            match strip (str "null") s with Some t => Some (JNull, t) | None => None end
          else match scan_number s with Some (n, t) => Some (JNum n, t) | None => None end
      end
  end
with parse_elements (fuel : nat) (d : Z) (s : bytes) : option (list jvalue * bytes) :=
  match fuel with
  | O => None
  | S f =>
      match parse_value f d s with
      | None => None
      | Some (v, r) =>
          match skip_ws r with
          | [] => None
          | c :: r1 =>
              if c =? 44 then
                match parse_elements f d (skip_ws r1) with
                | Some (l, t) => Some (v :: l, t)
                | None => None
                end
              else if c =? 93 then Some ([v], r1)
              else None
          end
      end
  end
with parse_members (fuel : nat) (d : Z) (s : bytes) : option (list (bytes * jvalue) * bytes) :=
  match fuel with
  | O => None
  | S f =>
      match s with
      | [] => None
      | q :: r0 =>
          if q =? 34 then
            match scan_string r0 with
            | None => None
            | Some (k, r1) =>
                match skip_ws r1 with
                | [] => None
                | c :: r2 =>
                    if c =? 58 then
                      match parse_value f d (skip_ws r2) with
                      | None => None
                      | Some (v, r3) =>
                          match skip_ws r3 with
                          | [] => None
                          | c' :: r4 =>
                              if c' =? 44 then
                                match parse_members f d (skip_ws r4) with
                                | Some (m, t) => Some ((k, v) :: m, t)
                                | None => None
                                end
                              else if c' =? 125 then Some ([(k, v)], r4)
                              else None
                          end
                      end
                    else None
                end
            end
          else None
      end
  end.
(** scanner.go checkValid *)
Definition json_parse (s : bytes) : option jvalue :=
  match parse_value (S (2 * length s)) 10000 (skip_ws s) with
  | Some (v, r) => match skip_ws r with [] => Some v | _ => None end
  | None => None
  end.

(** ** decode.go unquoteBytes *)
Definition hex_digit (c : Z) : Z := if is_digit c then c - 48 else if 97 <=? c then c - 87 else c - 55.
(** decode.go getu4 *)
Definition getu4 (s : bytes) : option Z :=
  match s with
  | x :: y :: a :: b :: c :: d :: _ =>
      if (x =? 92) && (y =? 117) && is_hex a && is_hex b && is_hex c && is_hex d
      then Some (hex_digit a * 4096 + hex_digit b * 256 + hex_digit c * 16 + hex_digit d) else None
  | _ => None
  end.
Definition unescape (e : Z) : Z :=
  if e =? 98 then 8 else if e =? 102 then 12 else if e =? 110 then 10 else if e =? 114 then 13 else if e =? 116 then 9 else e.
(** decode.go, on the text between the quotes; [fuel] is its length. The scanner has accepted the text. *)
Fixpoint unquote_loop (fuel : nat) (s : bytes) : bytes :=
  match fuel with
  | O => []
  | S f =>
      match s with
      | [] => []
      | c :: r =>
          if c =? 92 then
            match getu4 s with
            | Some rr =>
                if in_range 55296 57343 rr then
                  match getu4 (skipn 6 s) with
                  | Some rr1 =>
                      if in_range 55296 56319 rr && in_range 56320 57343 rr1
                      then encode_rune ((rr - 55296) * 1024 + (rr1 - 56320) + 65536) ++ unquote_loop f (skipn 12 s)
                      else encode_rune RuneError ++ unquote_loop f (skipn 6 s)
                  | None => encode_rune RuneError ++ unquote_loop f (skipn 6 s)
                  end
                else encode_rune rr ++ unquote_loop f (skipn 6 s)
            | None =>
                match r with
                | e :: r1 => unescape e :: unquote_loop f r1
                | [] => []
                end
            end
          else if c <? 128 then c :: unquote_loop f r
          else let '(rr, size) := decode_rune s in encode_rune rr ++ unquote_loop f (skipn size s)
      end
  end.
Definition unquote (raw : bytes) : bytes := unquote_loop (length raw) raw.

(** ** fold.go *)
(** [caseMask]: b & 0xDF *)
Definition mask_case (b : Z) : Z := Z.land b 223.
(** fold.go foldFunc: does the name contain k or s? All names here are ASCII letters. *)
Definition special_fold (name : bytes) : bool := existsb (fun b => (mask_case b =? 75) || (mask_case b =? 83)) name.
(** fold.go simpleLetterEqualFold *)
Fixpoint simple_fold (s t : bytes) : bool :=
  match s, t with
  | [], [] => true
  | b :: s', c :: t' => (mask_case b =? mask_case c) && simple_fold s' t'
  | _, _ => false
  end.
(** fold.go equalFoldRight *)
Fixpoint fold_right_eq (s t : bytes) : bool :=
  match s with
  | [] => match t with [] => true | _ => false end
  | sb :: s' =>
      match t with
      | [] => false
      | tb :: t' =>
          if tb <? 128 then
            if sb =? tb then fold_right_eq s' t'
            else if in_range 65 90 (mask_case sb) && (mask_case sb =? mask_case tb) then fold_right_eq s' t' else false
          else
            let '(tr, size) := decode_rune t in
            if (mask_case sb =? 83) && (tr =? 383) then fold_right_eq s' (skipn size t)
            else if (mask_case sb =? 75) && (tr =? 8490) then fold_right_eq s' (skipn size t)
            else false
      end
  end.
Definition equal_fold (name key : bytes) : bool := if special_fold name then fold_right_eq name key else simple_fold name key.

(** decode.go: the exact name first, then the first that is equal under case folding *)
Fixpoint find_exact (names : list bytes) (key : bytes) (i : nat) : option nat :=
  match names with
  | [] => None
  | n :: r => if Bech32.bytes_eqb n key then Some i else find_exact r key (S i)
  end.
Fixpoint find_fold (names : list bytes) (key : bytes) (i : nat) : option nat :=
  match names with
  | [] => None
  | n :: r => if equal_fold n key then Some i else find_fold r key (S i)
  end.
Definition find_field (names : list bytes) (key : bytes) : option nat :=
  match find_exact names key 0 with
  | Some i => Some i
  | None => find_fold names key 0
  end.

(** ** Decoding into structs. The flag says that an UnmarshalTypeError has been saved. *)

(** decode.go literalStore, array, object: for a target of kind uint ([bits] = 64) or uint8 *)
Definition store_uint (bits : Z) (old : Z * bool) (v : jvalue) : Z * bool :=
  match v with
  | JNull => old
  | JNum t => match parse_uint t 64 with
              | Ok n => if n <? 2 ^ bits then (n, snd old) else (fst old, true)
              | _ => (fst old, true)
              end
  | _ => (fst old, true)
  end.

(** A struct whose fields are unsigned: a list of values with their widths. *)
Definition store_nth (widths : list Z) (i : nat) (st : list Z * bool) (v : jvalue) : list Z * bool :=
  let '(x, e) := store_uint (nth i widths 0) (nth i (fst st) 0, snd st) v in
  (firstn i (fst st) ++ x :: skipn (S i) (fst st), e).
(** decode.go object *)
Definition decode_flat (names : list bytes) (widths : list Z) (st : list Z * bool) (v : jvalue) : list Z * bool :=
  match v with
  | JNull => st
  | JObj m => fold_left (fun st kv => match find_field names (unquote (fst kv)) with
                                      | Some i => store_nth widths i st (snd kv)
                                      | None => st
                                      end) m st
  | _ => (fst st, true)
  end.

(** protocol.go:8-11 *)
Definition version_names : list bytes := [str "major"; str "minor"].
(** protocol.go:14-30 *)
Definition protocol_names : list bytes := [str "txFeePerByte"; str "txFeeFixed"; str "maxTxSize"; str "protocolVersion"; str "minUTxOValue"].
Definition zero_protocol : Protocol :=
  {| p_fee_per_byte := 0; p_fee_fixed := 0; p_max_tx_size := 0; p_major := 0; p_minor := 0; p_min_utxo := 0 |}.
Definition store_protocol (i : nat) (st : Protocol * bool) (v : jvalue) : Protocol * bool :=
  let '(p, e) := st in
  match i with
  | 0%nat => let '(x, e) := store_uint 64 (p_fee_per_byte p, e) v in
             ({| p_fee_per_byte := x; p_fee_fixed := p_fee_fixed p; p_max_tx_size := p_max_tx_size p; p_major := p_major p; p_minor := p_minor p; p_min_utxo := p_min_utxo p |}, e)
  | 1%nat => let '(x, e) := store_uint 64 (p_fee_fixed p, e) v in
             ({| p_fee_per_byte := p_fee_per_byte p; p_fee_fixed := x; p_max_tx_size := p_max_tx_size p; p_major := p_major p; p_minor := p_minor p; p_min_utxo := p_min_utxo p |}, e)
  | 2%nat => let '(x, e) := store_uint 64 (p_max_tx_size p, e) v in
             ({| p_fee_per_byte := p_fee_per_byte p; p_fee_fixed := p_fee_fixed p; p_max_tx_size := x; p_major := p_major p; p_minor := p_minor p; p_min_utxo := p_min_utxo p |}, e)
  | 3%nat => let '(l, e) := decode_flat version_names [8; 8] ([p_major p; p_minor p], e) v in
             ({| p_fee_per_byte := p_fee_per_byte p; p_fee_fixed := p_fee_fixed p; p_max_tx_size := p_max_tx_size p; p_major := nth 0 l 0; p_minor := nth 1 l 0; p_min_utxo := p_min_utxo p |}, e)
  | _ => let '(x, e) := store_uint 64 (p_min_utxo p, e) v in
         ({| p_fee_per_byte := p_fee_per_byte p; p_fee_fixed := p_fee_fixed p; p_max_tx_size := p_max_tx_size p; p_major := p_major p; p_minor := p_minor p; p_min_utxo := x |}, e)
  end.
Definition decode_protocol (v : jvalue) : Protocol * bool :=
  match v with
  | JNull => (zero_protocol, false)
  | JObj m => fold_left (fun st kv => match find_field protocol_names (unquote (fst kv)) with
                                      | Some i => store_protocol i st (snd kv)
                                      | None => st
                                      end) m (zero_protocol, false)
  | _ => (zero_protocol, true)
  end.

(** protocol.go:42-47 loadProtocolFromBytes: the protocol, and whether the error is not nil *)
Definition loadProtocolFromBytes (data : bytes) : Protocol * bool :=
  match json_parse data with
  | None => (zero_protocol, true)
  | Some v => decode_protocol v
  end.
(** protocol.go:34-40 LoadProtocol; [None]: the file cannot be read *)
Definition LoadProtocol (file : option bytes) : Protocol * bool :=
  match file with
  | None => (zero_protocol, true)
  | Some data => loadProtocolFromBytes data
  end.
(** cardano-cli.go:48-55; [None]: the command failed, and data is nil *)
Definition cli_protocol (out : option bytes) : Protocol * bool :=
  loadProtocolFromBytes (match out with Some d => d | None => [] end).

(** node/types.go:4-8 *)
Record NetworkTip := { t_slot : Z; t_epoch : Z; t_block : Z }.
Definition tip_names : list bytes := [str "slot"; str "epoch"; str "block"].
(** cardano-cli.go:95-102 *)
Definition cli_tip (out : option bytes) : NetworkTip * bool :=
  let mk l := {| t_slot := nth 0 l 0; t_epoch := nth 1 l 0; t_block := nth 2 l 0 |} in
  match json_parse (match out with Some d => d | None => [] end) with
  | None => (mk [], true)
  | Some v => let '(l, e) := decode_flat tip_names [64; 64; 64] ([0; 0; 0], false) v in (mk l, e)
  end.
(** blockfrost.go:154-167: the fields are Go ints *)
Definition bf_tip (slot epoch height : Z) : NetworkTip := {| t_slot := u64 slot; t_epoch := u64 epoch; t_block := u64 height |}.

(** ** cardano-cli.go:104-147 SubmitTx: the file written with MarshalIndent(outTx, "", "\t"), and the arguments *)
Definition json_envelope (txHex : bytes) : bytes :=
  let q := [34] in let nl := [10; 9] in
  [123] ++ nl ++ q ++ str "type" ++ q ++ str ": " ++ q ++ q ++ [44] ++ nl ++ q ++ str "description" ++ q ++ str ": " ++ q ++ q ++ [44] ++
  nl ++ q ++ str "cborHex" ++ q ++ str ": " ++ q ++ txHex ++ q ++ [10; 125].
Definition cli_submit_file `{TxCrypto} `{MapOrder} (n : nat) (t : Tx) : result bytes :=
  do h <- snd (tx_hex n t); Ok (json_envelope h).
Definition submit_args (n : NetworkInfo) (tmp : bytes) : list bytes := cli_args n [str "submit"; str "--tx-file " ++ tmp].
(** cardano-cli.go:57-58 UTXOs *)
Definition utxos_args (n : NetworkInfo) (addr : bytes) : list bytes := cli_args n [str "query"; str "utxos"; str "--address " ++ addr].
