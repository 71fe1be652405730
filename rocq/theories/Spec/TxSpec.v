(** Transactions as CBOR items, after the Alonzo ledger CDDL. Independent of the model.
      transaction      = [ transaction_body, transaction_witness_set, bool, auxiliary_data / null ]
      transaction_body = { 0 : [* transaction_input], 1 : [* transaction_output], 2 : coin,
                           ? 3 : uint (time to live), ? 7 : auxiliary_data_hash, ... }
      transaction_input  = [ transaction_id : $hash32, index : uint ]
      transaction_output = [ address : bytes, amount : value ]
      transaction_witness_set = { ? 0 : [* vkeywitness], ... },  vkeywitness = [ $vkey, $signature ] *)
From Coq Require Import ZArith List.
From Verif.Spec Require Import CborSpec.
Import ListNotations. Open Scope Z_scope.

Definition input_item (i : list Z * Z) : item := Arr [Bstr (fst i); Uint (snd i)].
Definition output_item (o : list Z * Z) : item := Arr [Bstr (fst o); Uint (snd o)].

(** The output items are given as they are, so that the wrong form written for Byron addresses can be
    described as well. *)
Definition body_item (inputs : list (list Z * Z)) (outputs : list item) (fee ttl : Z) (aux : list Z) : item :=
  Map ([(Uint 0, Arr (map input_item inputs)); (Uint 1, Arr outputs); (Uint 2, Uint fee)]
       ++ (if ttl =? 0 then [] else [(Uint 3, Uint ttl)])
       ++ (match aux with [] => [] | _ => [(Uint 7, Bstr aux)] end)).

Definition vkey_item (w : list Z * list Z) : item := Arr [Bstr (fst w); Bstr (snd w)].
Definition witness_item (ws : list (list Z * list Z)) : item :=
  Map (match ws with [] => [] | _ => [(Uint 0, Arr (map vkey_item ws))] end).
Definition bool_item (b : bool) : item := Simple (if b then 21 else 20).
Definition null_item : item := Simple 22.
Definition tx_item (body : item) (ws : list (list Z * list Z)) (valid : bool) (aux : item) : item :=
  Arr [body; witness_item ws; bool_item valid; aux].

(** The bytes a CBOR head takes. *)
Definition uint_size (n : Z) : Z := if n <? 24 then 1 else if n <? 2 ^ 8 then 2 else if n <? 2 ^ 16 then 3 else if n <? 2 ^ 32 then 5 else 9.
