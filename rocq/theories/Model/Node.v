(** Model of the decision logic and conversions of /repo/node and /repo/protocol: what is passed to
    cardano-cli and to the blockfrost client, and how their answers are converted. Process execution, HTTP
    and temporary files are outside the model: their results are inputs here. JSON is in Model/Json.v. *)
From Verif.Model Require Import Base Utf8 Hex Network Tx.

(** ** Standard library helpers *)

(** strconv / fmt %d of a non-negative integer. *)
Fixpoint decimal_aux (fuel : nat) (n : Z) (acc : bytes) : bytes :=
  match fuel with
  | O => acc
  | S f => let acc' := (48 + n mod 10) :: acc in
           if n <? 10 then acc' else decimal_aux f (n / 10) acc'
  end.
Definition decimal (n : Z) : bytes := decimal_aux 20 n [].

Definition is_digit (c : Z) : bool := (48 <=? c) && (c <=? 57).
Definition digits_value (s : bytes) : Z := fold_left (fun a c => a * 10 + (c - 48)) s 0.

(** strconv.ParseUint(s, 10, bits) *)
Definition parse_uint (s : bytes) (bits : Z) : result Z :=
  match s with
  | [] => Err EAtoi
  | _ => if forallb is_digit s
         then if digits_value s <? 2 ^ bits then Ok (digits_value s) else Err EAtoi
         else Err EAtoi
  end.

(** strconv.Atoi (int is 64 bits) *)
Definition atoi (s : bytes) : result Z :=
  let body neg t :=
    match t with
    | [] => Err EAtoi
    | _ => if forallb is_digit t then
             let v := if (neg : bool) then - digits_value t else digits_value t in
             if (- 2 ^ 63 <=? v) && (v <? 2 ^ 63) then Ok v else Err EAtoi
           else Err EAtoi
    end in
  match s with
  | c :: r => if c =? 45 then body true r else if c =? 43 then body false r else body false s
  | [] => Err EAtoi
  end.

(** strings.Split(s, "\n") *)
Fixpoint split_lines (s : bytes) : list bytes :=
  match s with
  | [] => [[]]
  | c :: r =>
      if c =? 10 then [] :: split_lines r
      else match split_lines r with
           | l :: ls => (c :: l) :: ls
           | [] => [[c]]
           end
  end.

(** unicode.IsSpace: the table White_Space of Go's package unicode; below 128 this is also strings.asciiSpace. *)
Definition is_space (c : Z) : bool :=
  (c =? 32) || ((9 <=? c) && (c <=? 13)) || (c =? 133) || (c =? 160) || (c =? 5760) || ((8192 <=? c) && (c <=? 8202)) ||
  (c =? 8232) || (c =? 8233) || (c =? 8239) || (c =? 8287) || (c =? 12288).
(** strings.Fields: the maximal runs of runes that are not white space. A byte that starts no rune is read as U+FFFD, which is not. *)
Fixpoint fields_loop (fuel : nat) (s cur : bytes) : list bytes :=
  let flush := match cur with [] => [] | _ => [rev cur] end in
  match s with
  | [] => flush
  | _ => match fuel with
         | O => []
         | S f => let '(r, size) := decode_rune s in
                  if is_space r then flush ++ fields_loop f (skipn size s) []
                  else fields_loop f (skipn size s) (rev (firstn size s) ++ cur)
         end
  end.
Definition fields (s : bytes) : list bytes := fields_loop (length s) s [].

(** ** cardano-cli *)

(** cardano-cli.go:24-35: the argument vector given to exec.Command. *)
Definition cli_suffix (n : NetworkInfo) : bytes :=
  if NetworkId n =? 0 then str "--mainnet"
  else str "--testnet-magic " ++ decimal (ProtocolMagic n).
Definition cli_args (n : NetworkInfo) (args : list bytes) : list bytes := args ++ [cli_suffix n].

(** cardano-cli.go:150-164 *)
Definition cli_path (paths : list bytes) : bytes :=
  match paths with
  | p :: _ => match p with [] => [] | _ => p end
  | [] => str "cardano-cli"
  end.

(** cardano-cli.go:70-91: the loop over the lines; the inputs collected so far are returned with an error. *)
Fixpoint cli_rows (rows : list bytes) (acc : list TxInput) : result (list TxInput * option goerror) :=
  match rows with
  | [] => Ok (acc, None)
  | it :: r =>
      let sec := fields it in
      do f1 <- index sec 1;
      match parse_uint f1 16 with
      | Err e => Ok (acc, Some e)
      | Panic => Panic
      | Ok txIx =>
          do f2 <- index sec 2;
          do am <- index (fields f2) 0;
          match atoi am with
          | Err e => Ok (acc, Some e)
          | Panic => Panic
          | Ok amount =>
              do f0 <- index sec 0;
              cli_rows r (acc ++ [NewTxInput f0 (u16 txIx) (u64 amount)])
          end
      end
  end.

(** cardano-cli.go:57-93, given the command's output. [lenData] is the number of bytes, not of lines. *)
Definition cli_utxos (data : bytes) : result (list TxInput * option goerror) :=
  let ldata := split_lines data in
  let lenData := length data in
  if (lenData <? 3)%nat then Ok ([], None) else
  do rows <- slice ldata 2 (lenData - 1);
  cli_rows rows [].

(** ** blockfrost *)

(** The fields of blockfrost.AddressUTXO that are read. *)
Record ApiAmount := { Unit_ : bytes; Quantity : bytes }.
Record ApiUTXO := { ApiTxHash : bytes; ApiIndex : Z; ApiAmounts : list ApiAmount }.

(** blockfrost.go:47-58 (file lines): the last lovelace entry wins. *)
Fixpoint bf_amount (l : list ApiAmount) (amount : Z) : result Z :=
  match l with
  | [] => Ok amount
  | am :: r =>
      if Bech32.bytes_eqb (Unit_ am) (str "lovelace")
      then do a <- atoi (Quantity am); bf_amount r (u64 a)
      else bf_amount r amount
  end.

(** blockfrost.go:36-63, given the API's answer. *)
Fixpoint bf_utxos (l : list ApiUTXO) : result (list TxInput) :=
  match l with
  | [] => Ok []
  | u :: r =>
      do a <- bf_amount (ApiAmounts u) 0;
      do rest <- bf_utxos r;
      Ok (NewTxInput (ApiTxHash u) (u16 (ApiIndex u)) a :: rest)
  end.

Inductive Server := BfTestNet | BfMainNet.

(** blockfrost.go:25-33 getNetwork: the submit URL. *)
Definition bf_submit_server (n : NetworkInfo) : Server :=
  if NetworkId n =? 0 then BfTestNet else BfMainNet.
(** blockfrost.go:128-149 NewBlockfrostClient: the query client's server. *)
Definition bf_query_server (n : NetworkInfo) : Server :=
  if NetworkId n =? 0 then BfTestNet else BfMainNet.

(** blockfrost.go:96-107: the POST request of SubmitTx. The URL is the server's followed by the path. *)
Record Request := { rq_server : Server; rq_path : bytes; rq_headers : list (bytes * bytes); rq_body : bytes }.
(** What comes back: no answer (109-113), an answer whose body cannot be read (115-118), or status and body. *)
Inductive Response := NoAnswer | Unreadable | Answer (status : Z) (body : bytes).
Inductive SubmitError := SubmitEncoding (e : goerror) | SubmitTransport | SubmitStatus (text : bytes).

(** blockfrost.go:90-125 SubmitTx, with the number of marshallings so far: the returned string and the error. A
    panic of Bytes is passed on. *)
Definition bf_submit `{TxCrypto} `{MapOrder} (n : NetworkInfo) (project : bytes) (clock : nat) (t : Tx)
    (http : Request -> Response) : result (bytes * option SubmitError) :=
  match snd (tx_bytes clock t) with
  | Ok txB =>
      match http {| rq_server := bf_submit_server n; rq_path := str "tx/submit";
                    rq_headers := [(str "project_id", project); (str "Content-Type", str "application/cbor")];
                    rq_body := txB |} with
      | NoAnswer | Unreadable => Ok ([], Some SubmitTransport)
      | Answer status resb => Ok (resb, if status =? 200 then None else Some (SubmitStatus resb))
      end
  | Err e => Ok ([], Some (SubmitEncoding e))
  | Panic => Panic
  end.

(** protocol.go:14-30 *)
Record Protocol := {
  p_fee_per_byte : Z; p_fee_fixed : Z; p_max_tx_size : Z; p_major : Z; p_minor : Z; p_min_utxo : Z }.

(** The fields of blockfrost.EpochParameters that are read (Go ints, and a decimal string). *)
Record ApiParams := {
  a_min_fee_a : Z; a_min_fee_b : Z; a_max_tx_size : Z; a_major : Z; a_minor : Z; a_min_utxo : bytes }.

(** blockfrost.go:66-87 *)
Definition bf_protocol (p : ApiParams) : result Protocol :=
  do minU <- atoi (a_min_utxo p);
  Ok {| p_fee_per_byte := u64 (a_min_fee_a p); p_fee_fixed := u64 (a_min_fee_b p);
        p_max_tx_size := u64 (a_max_tx_size p); p_major := u8 (a_major p); p_minor := u8 (a_minor p);
        p_min_utxo := u64 minU |}.
