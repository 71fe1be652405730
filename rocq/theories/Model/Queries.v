(** Model of the query of /repo/node/blockfrost.go:36-63 as a whole: what the service is asked and what becomes of the answer. The
    service is an argument; HTTP and the JSON of the blockfrost client are outside the model. *)
From Verif.Model Require Import Base Bech32 Network Address Tx Node.

(** blockfrost.go:37-41: the address text, and which page of the listing ([APIQueryParams]; None for its zero value, which the client
    does not send). *)
Record UtxoQuery := { uq_server : Server; uq_address : bytes; uq_page : option nat }.

(** blockfrost.go:36-63 with 128-149: one request; None stands for an error of the client. *)
Definition bf_list `{Unicode} (n : NetworkInfo) (addr : Address) (api : UtxoQuery -> option (list ApiUTXO)) : result (list TxInput) :=
  do text <- addr_string addr;
  match api {| uq_server := bf_query_server n; uq_address := text; uq_page := None |} with
  | None => Err EHttp
  | Some utxos => bf_utxos utxos
  end.
