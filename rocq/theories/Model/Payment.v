(** examples/transactions/txbuilder/main.go:83-179: a payment of 5 ada. The answers of the node (protocol parameters, UTXOs,
    tip) are arguments; [log.Fatal] is an error result. *)
From Verif.Model Require Import Base Bech32 Network Address Tx Builder Bip32 Keys Wallet.
Open Scope Z_scope.

(** 130: [sendAmount := 5000000] *)
Definition sendAmount : Z := 5000000.
(** 135: [minRequired], converted to uint at 136 *)
Definition minRequired : Z := u64 (sendAmount + 1000000 + 200000).
(** 131-139: the zero value, then the loop without a break *)
Definition firstMatchInput (utxos : list TxInput) : TxInput :=
  fold_left (fun m utxo => if minRequired <=? InAmount utxo then utxo else m) utxos {| TxHash := []; Index := 0; InAmount := 0 |}.
(** 158: [uint32(tip.Slot) + uint32(300)] *)
Definition payment_ttl (slot : Z) : Z := u32 (u32 slot + 300).

Section Payment.
Context {H : Hashes} {MO : MapOrder} {U : Unicode} {R : Runtime}.
#[local] Existing Instance tx_crypto.

(** 124-162 with the modelled operations of the builder *)
Definition payment_ops (fees : LinearFee) (utxoPrvKey : bytes) (input : TxInput) (receiver source : Address) (slot : Z) : list op :=
  [OMakeKeys [utxoPrvKey] 0; ONewBuilder fees {| s_arr := 0; s_off := 0; s_len := 1 |};
   OAddInputs 0 [input];
   OAddOutputs 0 [{| OutAddress := receiver; OutAmount := u64 sendAmount |}];
   OSetTTL 0 (payment_ttl slot);
   OAddChange 0 source].
(** 94-168: the heap and the transaction returned by Build *)
Definition payment (fees : LinearFee) (rootKey receiverAddr : bytes) (utxos : list TxInput) (slot : Z) : result (World * nat) :=
  do ' (sourceAddr, utxoPrvKey) <- generateBaseAddress TestNet rootKey;
  do text <- match receiverAddr with [] => addr_string (ABase sourceAddr) | _ => Ok receiverAddr end;
  do receiver <- NewAddress text;
  let w := run empty_world (payment_ops fees utxoPrvKey (firstMatchInput utxos) receiver (ABase sourceAddr) slot) in
  match build w 0 with
  | (w, Ok t) => Ok (w, t)
  | (_, Err e) => Err e
  | (_, Panic) => Panic
  end.
End Payment.
