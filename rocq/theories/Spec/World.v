(** Programs that use the builder: the worlds they reach and what each operation is meant to touch. *)
From Verif.Model Require Import Base Cbor Address Tx Builder.
From Verif.Spec Require Import CborSpec MdSpec Values.

Section World.
Context {C : TxCrypto} {MO : MapOrder}.

(** Worlds a program can reach. *)
Definition reachable (w : World) : Prop := exists l, valid_run empty_world l /\ w = run empty_world l.
Definition nbuilders (w : World) := length (w_builders w).
Definition ntxs (w : World) := length (w_txs w).

(** The minimum fee of builder b in world w. *)
Definition mf (w : World) (b : nat) : Z := fst (min_fee (w_clock w) (b_fees (bld w b)) (builder_tx w b)).

(** What operation [o] adds to the transaction of builder i. *)
Definition added_inputs (w : World) (o : op) (i : nat) : list TxInput :=
  match o with OAddInputs t l => if Nat.eqb i (o_body (obj w t)) then l else [] | _ => [] end.
(** The change is what the inputs exceed the outputs and the fee by, modulo 2^64. *)
Definition change_output (w : World) (b : nat) (a : Address) : TxOutput :=
  let body := Body (builder_tx w b) in {| OutAddress := a; OutAmount := (sum_in body - sum_out body - mf w b) mod 2 ^ 64 |}.
Definition added_outputs (w : World) (o : op) (i : nat) : list TxOutput :=
  match o with
  | OAddOutputs t l => if Nat.eqb i (o_body (obj w t)) then l else []
  | OAddChange b a => if Nat.eqb i b then [change_output w b a] else []
  | _ => []
  end.
Definition new_fee (w : World) (o : op) (i : nat) (f : Z) : Z :=
  match o with
  | OSetFee t x => if Nat.eqb i (o_body (obj w t)) then x else f
  | OAddChange b _ => if Nat.eqb i b then mf w b else f
  | _ => f
  end.
Definition new_ttl (w : World) (o : op) (i : nat) (x : Z) : Z :=
  match o with OSetTTL b y => if Nat.eqb i b then y else x | _ => x end.

(** The auxiliary data hash of body i after an operation: serialising a transaction that has the body and some metadata stores
    the hash of the metadata as they are written then. *)
Definition new_aux (w : World) (o : op) (i : nat) (x : bytes) : bytes :=
  let hash t := match Metadata (load w t) with Some m => blake2b256 (cbor (md_item (map_order (w_clock w) m))) | None => x end in
  match o with
  | OBytes t | OHash t | OFee t _ => if Nat.eqb i (o_body (obj w t)) then hash t else x
  | OBuild b => if Nat.eqb i b then hash (b_tx (bld w b)) else x
  | _ => x
  end.
(** The metadata an operation assigns satisfy P. *)
Definition metadata_all (P : option md -> Prop) (o : op) : Prop := match o with OSetMetadata _ m => P m | _ => True end.

(** The builder whose transaction an operation works on. *)
Definition owner (w : World) (o : op) : option nat :=
  match o with
  | OMakeKeys _ _ | ONewBuilder _ _ => None
  | OSign b _ | OSetTTL b _ | OMinFee b | OAddChange b _ | OBuild b => Some b
  | OAddInputs t _ | OAddOutputs t _ | OSetFee t _ | OSetMetadata t _ | OBytes t | OHash t | OFee t _ => Some (o_body (obj w t))
  end.

(** Builders whose key slices have arrays of their own. *)
Definition unshared (w : World) : Prop := forall b b', (b < nbuilders w)%nat -> (b' < nbuilders w)%nat -> b <> b' ->
  s_arr (b_keys (bld w b)) <> s_arr (b_keys (bld w b')).
Definition fresh_slice (w : World) (o : op) : Prop :=
  match o with ONewBuilder _ s => forall b, (b < nbuilders w)%nat -> s_arr (b_keys (bld w b)) <> s_arr s | _ => True end.

(** The keys an operation gives to builder b. *)
Definition signed (o : op) (b : nat) : list bytes := match o with OSign b' k => if Nat.eqb b b' then [k] else [] | _ => [] end.
End World.
