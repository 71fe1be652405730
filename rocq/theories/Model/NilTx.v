(** Model of /repo/tx on transactions with nil pointers in Body.Inputs and Body.Outputs and with outputs whose Address is a nil
    interface, as left by [addr, _ := address.NewAddress(text)] for a text that is not an address. Otherwise as Model/Tx.v; Props/NilTx.v
    proves that the two agree where nothing is nil. Typed nil pointers inside an Address and a nil TxHash are not modelled. *)
From Verif.Model Require Import Base Bech32 Hex Cbor Network Address Tx.

(** tx_input_output.go:42-46 *)
Record NOutput := { NAddress : option Address; NAmount : Z }.
(** tx_body.go:10-16: slices of pointers. *)
Record NBody := { NInputs : list (option TxInput); NOutputs : list (option NOutput); NFee : Z; NTTL : Z; NAux : bytes }.
(** tx.go:12-18 *)
Record NTx := { NTxBody : NBody; NWitness : list VKeyWitness; NValid : bool; NMeta : option md }.

(** cbor.Marshal writes null for a nil pointer, before it looks for a MarshalCBOR method (tx_input_output.go:29-40). *)
Definition enc_ninput (i : option TxInput) : bytes := match i with None => enc_nil | Some i => enc_input i end.
(** tx_input_output.go:42-46: null for a nil pointer; in the array, null for a nil interface. *)
Definition enc_noutput (o : option NOutput) : result bytes :=
  match o with
  | None => Ok enc_nil
  | Some o =>
      do a <- match NAddress o with None => Ok enc_nil | Some a => addr_marshal a end;
      Ok (enc_array_head 2 ++ a ++ enc_uint (NAmount o))
  end.
Fixpoint enc_noutputs (l : list (option NOutput)) : result bytes :=
  match l with
  | [] => Ok []
  | o :: r => do a <- enc_noutput o; do b <- enc_noutputs r; Ok (a ++ b)
  end.
(** tx_body.go:10-16, 27-30 *)
Definition nbody_marshal (b : NBody) : result bytes :=
  do outs <- enc_noutputs (NOutputs b);
  let n := 3 + (if NTTL b =? 0 then 0 else 1) + (if zlen (NAux b) =? 0 then 0 else 1) in
  Ok (enc_map_head n
      ++ enc_uint 0 ++ enc_array_head (zlen (NInputs b)) ++ concat (map enc_ninput (NInputs b))
      ++ enc_uint 1 ++ enc_array_head (zlen (NOutputs b)) ++ outs
      ++ enc_uint 2 ++ enc_uint (NFee b)
      ++ (if NTTL b =? 0 then [] else enc_uint 3 ++ enc_uint (NTTL b))
      ++ (if zlen (NAux b) =? 0 then [] else enc_uint 7 ++ enc_bytes (NAux b))).
(** tx.go:34,68 *)
Definition ntx_marshal `{MapOrder} (n : nat) (t : NTx) : result bytes :=
  do b <- nbody_marshal (NTxBody t);
  do m <- match NMeta t with None => Ok enc_nil | Some m => enc_md (map_order n m) end;
  Ok (enc_array_head 4 ++ b ++ enc_witness (NWitness t) ++ enc_bool (NValid t) ++ m).

Definition nset_aux (b : NBody) (h : bytes) : NBody := {| NInputs := NInputs b; NOutputs := NOutputs b; NFee := NFee b; NTTL := NTTL b; NAux := h |}.
Definition nset_fee (b : NBody) (f : Z) : NBody := {| NInputs := NInputs b; NOutputs := NOutputs b; NFee := f; NTTL := NTTL b; NAux := NAux b |}.
Definition nadd_outputs (b : NBody) (l : list (option NOutput)) : NBody :=
  {| NInputs := NInputs b; NOutputs := NOutputs b ++ l; NFee := NFee b; NTTL := NTTL b; NAux := NAux b |}.
Definition nwith_body (t : NTx) (b : NBody) : NTx := {| NTxBody := b; NWitness := NWitness t; NValid := NValid t; NMeta := NMeta t |}.
Definition nwith_witness (t : NTx) (w : list VKeyWitness) : NTx := {| NTxBody := NTxBody t; NWitness := w; NValid := NValid t; NMeta := NMeta t |}.

(** tx.go:83-93 *)
Definition ncalc_aux `{TxCrypto} `{MapOrder} (n : nat) (t : NTx) : result NBody :=
  match NMeta t with
  | None => Ok (NTxBody t)
  | Some m => do mb <- enc_md (map_order n m); Ok (nset_aux (NTxBody t) (blake2b256 mb))
  end.
Definition nafter_aux `{TxCrypto} `{MapOrder} {A} (n : nat) (t : NTx) (k : NTx -> result A) : NBody * result A :=
  match ncalc_aux n t with
  | Ok b => (b, k (nwith_body t b))
  | Err e => (NTxBody t, Err e)
  | Panic => (NTxBody t, Panic)
  end.
(** tx.go:30-36, 48-60, 64-76 *)
Definition ntx_bytes `{TxCrypto} `{MapOrder} (n : nat) (t : NTx) : NBody * result bytes := nafter_aux n t (ntx_marshal (S n)).
Definition ntx_hash `{TxCrypto} `{MapOrder} (n : nat) (t : NTx) : NBody * result bytes :=
  nafter_aux n t (fun t' => do b <- nbody_marshal (NTxBody t'); Ok (blake2b256 b)).
Definition ntx_fee `{TxCrypto} `{MapOrder} (n : nat) (lfee : LinearFee) (t : NTx) : NBody * result Z :=
  nafter_aux n t (fun t' =>
    do txCbor <- ntx_marshal (S n) t';
    Ok (u64 (TxFeeFixed lfee + u64 (TxFeePerByte lfee * zlen txCbor)))).

(** tx_builder.go:69-78: inp.Amount and out.Amount panic for a nil pointer. *)
Fixpoint nsum_inputs (l : list (option TxInput)) (a : Z) : result Z :=
  match l with
  | [] => Ok a
  | None :: _ => Panic
  | Some i :: r => nsum_inputs r (u64 (a + InAmount i))
  end.
Fixpoint nsum_outputs (l : list (option NOutput)) (a : Z) : result Z :=
  match l with
  | [] => Ok a
  | None :: _ => Panic
  | Some o :: r => nsum_outputs r (u64 (a + NAmount o))
  end.
Definition ntotals (b : NBody) : result (Z * Z) :=
  do i <- nsum_inputs (NInputs b) 0; do o <- nsum_outputs (NOutputs b) 0; Ok (i, o).

(** tx_builder.go:81-117 *)
Definition nmin_fee `{TxCrypto} `{MapOrder} (n : nat) (lfee : LinearFee) (t : NTx) : result (Z * list VKeyWitness) :=
  let b := NTxBody t in
  let body0 := {| NInputs := NInputs b; NOutputs := NOutputs b; NFee := NFee b; NTTL := NTTL b; NAux := [] |} in
  let feeTx0 := {| NTxBody := body0; NWitness := NWitness t; NValid := true; NMeta := NMeta t |} in
  let body1 := match ncalc_aux n feeTx0 with Ok b' => b' | _ => body0 end in
  let ws := match NWitness t with [] => [placeholder_witness] | w => w end in
  do io <- ntotals b;
  let body2 := if fst io =? snd io then body1
               else nadd_outputs body1 [Some {| NAddress := Some placeholder_addr; NAmount := u64 (u64 (fst io - snd io) - 200000) |}] in
  let feeTx2 := {| NTxBody := body2; NWitness := ws; NValid := true; NMeta := NMeta t |} in
  let (body3, r1) := ntx_fee (n + 1) lfee feeTx2 in
  let feeTx3 := nwith_body feeTx2 (nset_fee body3 (fee_or_zero r1)) in
  let (_, r2) := ntx_fee (n + 3) lfee feeTx3 in
  Ok (fee_or_zero r2, ws).

(** tx_builder.go:50-62 *)
Definition nadd_change `{TxCrypto} `{MapOrder} (n : nat) (lfee : LinearFee) (t : NTx) (addr : option Address) : result NTx :=
  do fw <- nmin_fee n lfee t;
  let b1 := nset_fee (NTxBody t) (fst fw) in
  do io <- ntotals b1;
  Ok (nwith_witness (nwith_body t (nadd_outputs b1 [Some {| NAddress := addr; NAmount := u64 (u64 (fst io - snd io) - NFee b1) |}])) (snd fw)).

(** tx_builder.go:23-42 *)
Definition nbuild `{TxCrypto} `{MapOrder} (n : nat) (keys : list bytes) (t : NTx) : result NTx :=
  let (b, r) := ntx_hash n t in
  do h <- r;
  do ws <- sign_all keys h;
  Ok (nwith_witness (nwith_body t b) ws).

(** A transaction without nil pointers, seen as one that may have them. *)
Definition nout (o : TxOutput) : NOutput := {| NAddress := Some (OutAddress o); NAmount := OutAmount o |}.
Definition nbody (b : TxBody) : NBody := {| NInputs := map Some (Inputs b); NOutputs := map (fun o => Some (nout o)) (Outputs b); NFee := Fee b; NTTL := TTL b; NAux := AuxHash b |}.
Definition ntx (t : Tx) : NTx := {| NTxBody := nbody (Body t); NWitness := Witness t; NValid := Valid t; NMeta := Metadata t |}.
