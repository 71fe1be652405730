(** Model of the sharing in /repo/tx/tx_builder.go: a heap of transactions, bodies, witness sets and key
    arrays, and any number of builders and built transactions that refer to them.

    Inputs, outputs and keys are values here; Model/Pointers.v has the pointers and what the caller can write through
    them. Concurrent use is in Concurrent.v. Not modelled: writes by the caller into the spare capacity of Body.Inputs / Body.Outputs. *)
From Verif.Model Require Import Base Cbor Address Tx.

Section Heap.
Context {C : TxCrypto} {MO : MapOrder}.

(** A Tx struct (tx.go:12-18): Body and Witness are pointers. *)
Record TxObj := { o_body : nat; o_wit : nat; o_valid : bool; o_meta : option md }.

(** A []bip32.XPrv: array, offset, length; the capacity is what is left of the array. *)
Record KeySlice := { s_arr : nat; s_off : nat; s_len : nat }.

(** tx_builder.go:11-15 *)
Record BuilderObj := { b_tx : nat; b_keys : KeySlice; b_fees : LinearFee }.

Record World := {
  w_txs : list TxObj;
  w_bodies : list TxBody;
  w_wits : list (list VKeyWitness);
  w_arrays : list (list bytes);
  w_builders : list BuilderObj;
  w_clock : nat                 (* marshallings performed so far *)
}.

Definition empty_world : World :=
  {| w_txs := []; w_bodies := []; w_wits := []; w_arrays := []; w_builders := []; w_clock := 0 |}.

Fixpoint upd {A} (l : list A) (i : nat) (x : A) : list A :=
  match l, i with
  | [], _ => []
  | _ :: r, O => x :: r
  | y :: r, S j => y :: upd r j x
  end.

(** Field updates. *)
Definition put_body (w : World) (i : nat) (b : TxBody) : World :=
  {| w_txs := w_txs w; w_bodies := upd (w_bodies w) i b; w_wits := w_wits w;
     w_arrays := w_arrays w; w_builders := w_builders w; w_clock := w_clock w |}.
Definition put_wit (w : World) (i : nat) (x : list VKeyWitness) : World :=
  {| w_txs := w_txs w; w_bodies := w_bodies w; w_wits := upd (w_wits w) i x;
     w_arrays := w_arrays w; w_builders := w_builders w; w_clock := w_clock w |}.
Definition put_tx (w : World) (i : nat) (t : TxObj) : World :=
  {| w_txs := upd (w_txs w) i t; w_bodies := w_bodies w; w_wits := w_wits w;
     w_arrays := w_arrays w; w_builders := w_builders w; w_clock := w_clock w |}.
Definition put_array (w : World) (i : nat) (a : list bytes) : World :=
  {| w_txs := w_txs w; w_bodies := w_bodies w; w_wits := w_wits w;
     w_arrays := upd (w_arrays w) i a; w_builders := w_builders w; w_clock := w_clock w |}.
Definition put_builder (w : World) (i : nat) (b : BuilderObj) : World :=
  {| w_txs := w_txs w; w_bodies := w_bodies w; w_wits := w_wits w;
     w_arrays := w_arrays w; w_builders := upd (w_builders w) i b; w_clock := w_clock w |}.
Definition new_tx (w : World) (t : TxObj) : World :=
  {| w_txs := w_txs w ++ [t]; w_bodies := w_bodies w; w_wits := w_wits w;
     w_arrays := w_arrays w; w_builders := w_builders w; w_clock := w_clock w |}.
Definition new_body (w : World) (b : TxBody) : World :=
  {| w_txs := w_txs w; w_bodies := w_bodies w ++ [b]; w_wits := w_wits w;
     w_arrays := w_arrays w; w_builders := w_builders w; w_clock := w_clock w |}.
Definition new_wit (w : World) (x : list VKeyWitness) : World :=
  {| w_txs := w_txs w; w_bodies := w_bodies w; w_wits := w_wits w ++ [x];
     w_arrays := w_arrays w; w_builders := w_builders w; w_clock := w_clock w |}.
Definition new_array (w : World) (a : list bytes) : World :=
  {| w_txs := w_txs w; w_bodies := w_bodies w; w_wits := w_wits w;
     w_arrays := w_arrays w ++ [a]; w_builders := w_builders w; w_clock := w_clock w |}.
Definition new_builder (w : World) (b : BuilderObj) : World :=
  {| w_txs := w_txs w; w_bodies := w_bodies w; w_wits := w_wits w;
     w_arrays := w_arrays w; w_builders := w_builders w ++ [b]; w_clock := w_clock w |}.
Definition tick (w : World) (n : nat) : World :=
  {| w_txs := w_txs w; w_bodies := w_bodies w; w_wits := w_wits w;
     w_arrays := w_arrays w; w_builders := w_builders w; w_clock := w_clock w + n |}.

Definition nil_obj : TxObj := {| o_body := 0; o_wit := 0; o_valid := false; o_meta := None |}.
Definition nil_slice : KeySlice := {| s_arr := 0; s_off := 0; s_len := 0 |}.
Definition nil_builder : BuilderObj :=
  {| b_tx := 0; b_keys := nil_slice; b_fees := {| TxFeePerByte := 0; TxFeeFixed := 0 |} |}.

Definition obj (w : World) (t : nat) : TxObj := nth t (w_txs w) nil_obj.
Definition bld (w : World) (b : nat) : BuilderObj := nth b (w_builders w) nil_builder.

(** The transaction a handle denotes, with its pointers followed. *)
Definition load (w : World) (t : nat) : Tx :=
  let o := obj w t in
  {| Body := nth (o_body o) (w_bodies w) NewTxBody; Witness := nth (o_wit o) (w_wits w) [];
     Valid := o_valid o; Metadata := o_meta o |}.

Definition slice_keys (w : World) (s : KeySlice) : list bytes :=
  firstn (s_len s) (skipn (s_off s) (nth (s_arr s) (w_arrays w) [])).

Definition builder_tx (w : World) (b : nat) : Tx := load w (b_tx (bld w b)).
Definition builder_keys (w : World) (b : nat) : list bytes := slice_keys w (b_keys (bld w b)).

(** ** Operations *)

(** The caller makes a slice of keys with [spare] unused capacity: [make([]XPrv, n, n+spare)]. *)
Definition make_keys (w : World) (keys : list bytes) (spare : nat) : World :=
  new_array w (keys ++ repeat [] spare).

(** tx_builder.go:130-136 with tx.go:21-27: a fresh transaction; the caller's slice is kept as is. *)
Definition new_tx_builder (w : World) (fees : LinearFee) (keys : KeySlice) : World :=
  let t := length (w_txs w) in
  let o := {| o_body := length (w_bodies w); o_wit := length (w_wits w); o_valid := true; o_meta := None |} in
  new_builder (new_tx (new_wit (new_body w NewTxBody) []) o)
    {| b_tx := t; b_keys := keys; b_fees := fees |}.

(** tx_builder.go:18-20: [append]. With spare capacity the element is written in place; otherwise the
    elements move to a new array (whose unobservable spare capacity is taken to be the old length). *)
Definition sign_with (w : World) (b : nat) (key : bytes) : World :=
  let bo := bld w b in
  let s := b_keys bo in
  let arr := nth (s_arr s) (w_arrays w) [] in
  if (s_off s + s_len s <? length arr)%nat then
    put_builder (put_array w (s_arr s) (upd arr (s_off s + s_len s) key)) b
      {| b_tx := b_tx bo; b_keys := {| s_arr := s_arr s; s_off := s_off s; s_len := S (s_len s) |};
         b_fees := b_fees bo |}
  else
    let keys := slice_keys w s in
    put_builder (new_array w (keys ++ [key] ++ repeat [] (length keys))) b
      {| b_tx := b_tx bo; b_keys := {| s_arr := length (w_arrays w); s_off := 0; s_len := S (length keys) |};
         b_fees := b_fees bo |}.

(** tx.go:79-81, 96-107 and tx_builder.go:65-67,120-127 *)
Definition set_tx_fee (w : World) (t : nat) (f : Z) : World :=
  put_body w (o_body (obj w t)) (set_fee (Body (load w t)) f).
Definition add_tx_inputs (w : World) (t : nat) (l : list TxInput) : World :=
  put_body w (o_body (obj w t)) (add_inputs (Body (load w t)) l).
Definition add_tx_outputs (w : World) (t : nat) (l : list TxOutput) : World :=
  put_body w (o_body (obj w t)) (add_outputs (Body (load w t)) l).
Definition set_builder_ttl (w : World) (b : nat) (x : Z) : World :=
  let t := b_tx (bld w b) in
  put_body w (o_body (obj w t)) (set_ttl (Body (load w t)) x).

(** The caller assigns the exported field [Metadata] of a transaction (tx.go:17). *)
Definition set_metadata (w : World) (t : nat) (m : option md) : World :=
  let o := obj w t in
  put_tx w t {| o_body := o_body o; o_wit := o_wit o; o_valid := o_valid o; o_meta := m |}.

(** tx.go:30-36, 48-60, 64-76 on a transaction held by handle. *)
Definition run_bytes (w : World) (t : nat) : World * result bytes :=
  let (b, r) := tx_bytes (w_clock w) (load w t) in
  (tick (put_body w (o_body (obj w t)) b) 2, r).
Definition run_hash (w : World) (t : nat) : World * result bytes :=
  let (b, r) := tx_hash (w_clock w) (load w t) in
  (tick (put_body w (o_body (obj w t)) b) 1, r).
Definition run_fee (w : World) (t : nat) (lfee : LinearFee) : World * result Z :=
  let (b, r) := tx_fee (w_clock w) lfee (load w t) in
  (tick (put_body w (o_body (obj w t)) b) 2, r).

(** tx_builder.go:81-117: feeTx has its own body but the builder's Witness object. *)
Definition run_min_fee (w : World) (b : nat) : World * Z :=
  let t := b_tx (bld w b) in
  let (f, ws) := min_fee (w_clock w) (b_fees (bld w b)) (load w t) in
  (tick (put_wit w (o_wit (obj w t)) ws) 5, f).

(** tx_builder.go:50-62 *)
Definition add_change_if_needed (w : World) (b : nat) (addr : Address) : World :=
  let t := b_tx (bld w b) in
  let (w1, f) := run_min_fee w b in
  put_body w1 (o_body (obj w1 t)) (add_change (Body (load w1 t)) f addr).

(** tx_builder.go:23-42: on success the builder's transaction gets a new Witness object, and the returned
    Tx value (a new handle, the last one) shares Body and Witness with it. *)
Definition build (w : World) (b : nat) : World * result nat :=
  let t := b_tx (bld w b) in
  let (w1, rh) := run_hash w t in
  match rh with
  | Ok hash =>
      match sign_all (slice_keys w1 (b_keys (bld w1 b))) hash with
      | Ok ws =>
          let o := obj w1 t in
          let o' := {| o_body := o_body o; o_wit := length (w_wits w1); o_valid := o_valid o; o_meta := o_meta o |} in
          (new_tx (put_tx (new_wit w1 ws) t o') o', Ok (length (w_txs w1)))
      | Err e => (w1, Err e)
      | Panic => (w1, Panic)
      end
  | Err e => (w1, Err e)
  | Panic => (w1, Panic)
  end.

(** ** Programs: what a caller can do. *)
Inductive op :=
| OMakeKeys (keys : list bytes) (spare : nat)
| ONewBuilder (fees : LinearFee) (keys : KeySlice)
| OSign (b : nat) (key : bytes)
| OAddInputs (t : nat) (l : list TxInput)
| OAddOutputs (t : nat) (l : list TxOutput)
| OSetFee (t : nat) (f : Z)
| OSetTTL (b : nat) (x : Z)
| OSetMetadata (t : nat) (m : option md)
| OBytes (t : nat)
| OHash (t : nat)
| OFee (t : nat) (lfee : LinearFee)
| OMinFee (b : nat)
| OAddChange (b : nat) (addr : Address)
| OBuild (b : nat).

Definition step (w : World) (o : op) : World :=
  match o with
  | OMakeKeys keys spare => make_keys w keys spare
  | ONewBuilder fees keys => new_tx_builder w fees keys
  | OSign b key => sign_with w b key
  | OAddInputs t l => add_tx_inputs w t l
  | OAddOutputs t l => add_tx_outputs w t l
  | OSetFee t f => set_tx_fee w t f
  | OSetTTL b x => set_builder_ttl w b x
  | OSetMetadata t m => set_metadata w t m
  | OBytes t => fst (run_bytes w t)
  | OHash t => fst (run_hash w t)
  | OFee t lfee => fst (run_fee w t lfee)
  | OMinFee b => fst (run_min_fee w b)
  | OAddChange b addr => add_change_if_needed w b addr
  | OBuild b => fst (build w b)
  end.

(** Handles that exist. An operation on a handle that does not exist cannot be written in Go. *)
Definition valid_op (w : World) (o : op) : Prop :=
  match o with
  | OMakeKeys _ _ => True
  | ONewBuilder _ s => (s_arr s < length (w_arrays w) /\
                        s_off s + s_len s <= length (nth (s_arr s) (w_arrays w) []))%nat
  | OSign b _ | OSetTTL b _ | OMinFee b | OAddChange b _ | OBuild b => (b < length (w_builders w))%nat
  | OAddInputs t _ | OAddOutputs t _ | OSetFee t _ | OSetMetadata t _ | OBytes t | OHash t | OFee t _ =>
      (t < length (w_txs w))%nat
  end.

Definition run (w : World) (l : list op) : World := fold_left step l w.

Fixpoint valid_run (w : World) (l : list op) : Prop :=
  match l with
  | [] => True
  | o :: r => valid_op w o /\ valid_run (step w o) r
  end.

End Heap.
