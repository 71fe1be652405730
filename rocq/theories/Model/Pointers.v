(** The transactions of Builder.v with the pointers they hold: Body.Inputs is a []*TxInput, Body.Outputs a []*TxOutput and a key a
    []byte, and the caller of AddInputs, AddOutputs, Sign and NewTxBuilder keeps those pointers and can write through them.

    Not modelled: concurrent use, assignment to Body.Inputs and Body.Outputs themselves, and keys that overlap in one byte array. *)
From Verif.Model Require Import Base Cbor Address Tx Builder.

(** tx_body.go:10-16 *)
Record PBody := { p_ins : list nat; p_outs : list nat; p_fee : Z; p_ttl : Z; p_aux : bytes }.

(** All TxInput and TxOutput structs and the bytes of all keys, and what refers to them. The other fields are those of [World]; the
    elements of a []bip32.XPrv are references to keys or, in its spare capacity, nil. *)
Record PWorld := {
  p_inputs : list TxInput;
  p_outputs : list TxOutput;
  p_keys : list bytes;
  p_txs : list TxObj;
  p_bodies : list PBody;
  p_wits : list (list VKeyWitness);
  p_arrays : list (list (option nat));
  p_builders : list BuilderObj;
  p_clock : nat
}.
Definition p_empty : PWorld :=
  {| p_inputs := []; p_outputs := []; p_keys := []; p_txs := []; p_bodies := []; p_wits := []; p_arrays := []; p_builders := []; p_clock := 0 |}.

(** What the pointers denote now. *)
Definition input_at (pw : PWorld) (r : nat) : TxInput := nth r (p_inputs pw) {| TxHash := []; Index := 0; InAmount := 0 |}.
Definition output_at (pw : PWorld) (r : nat) : TxOutput := nth r (p_outputs pw) {| OutAddress := placeholder_addr; OutAmount := 0 |}.
Definition key_at (pw : PWorld) (r : option nat) : bytes := match r with Some r => nth r (p_keys pw) [] | None => [] end.
Definition body_now (pw : PWorld) (b : PBody) : TxBody :=
  {| Inputs := map (input_at pw) (p_ins b); Outputs := map (output_at pw) (p_outs b); Fee := p_fee b; TTL := p_ttl b; AuxHash := p_aux b |}.
Definition view (pw : PWorld) : World :=
  {| w_txs := p_txs pw; w_bodies := map (body_now pw) (p_bodies pw); w_wits := p_wits pw; w_arrays := map (map (key_at pw)) (p_arrays pw);
     w_builders := p_builders pw; w_clock := p_clock pw |}.

(** ** What the library does *)

(** Functions that read through the pointers but assign neither Body.Inputs nor Body.Outputs nor keys: the rest of the state as they
    leave it. *)
Definition keep_refs (b : PBody) (v : TxBody) : PBody :=
  {| p_ins := p_ins b; p_outs := p_outs b; p_fee := Fee v; p_ttl := TTL v; p_aux := AuxHash v |}.
Fixpoint map2 {A B D} (f : A -> B -> D) (l : list A) (k : list B) : list D :=
  match l, k with x :: l, y :: k => f x y :: map2 f l k | _, _ => [] end.
Definition assign (pw : PWorld) (w : World) : PWorld :=
  {| p_inputs := p_inputs pw; p_outputs := p_outputs pw; p_keys := p_keys pw; p_txs := w_txs w;
     p_bodies := map2 keep_refs (p_bodies pw) (w_bodies w); p_wits := w_wits w; p_arrays := p_arrays pw;
     p_builders := w_builders w; p_clock := w_clock w |}.

Definition nil_pbody : PBody := {| p_ins := []; p_outs := []; p_fee := 0; p_ttl := 0; p_aux := [] |}.
Definition p_body (pw : PWorld) (t : nat) : nat := o_body (nth t (p_txs pw) nil_obj).
Definition with_bodies (pw : PWorld) (l : list PBody) : PWorld :=
  {| p_inputs := p_inputs pw; p_outputs := p_outputs pw; p_keys := p_keys pw; p_txs := p_txs pw; p_bodies := l; p_wits := p_wits pw;
     p_arrays := p_arrays pw; p_builders := p_builders pw; p_clock := p_clock pw |}.
Definition with_arrays (pw : PWorld) (a : list (list (option nat))) (b : list BuilderObj) : PWorld :=
  {| p_inputs := p_inputs pw; p_outputs := p_outputs pw; p_keys := p_keys pw; p_txs := p_txs pw; p_bodies := p_bodies pw; p_wits := p_wits pw;
     p_arrays := a; p_builders := b; p_clock := p_clock pw |}.
Definition with_heaps (pw : PWorld) (i : list TxInput) (o : list TxOutput) (k : list bytes) : PWorld :=
  {| p_inputs := i; p_outputs := o; p_keys := k; p_txs := p_txs pw; p_bodies := p_bodies pw; p_wits := p_wits pw;
     p_arrays := p_arrays pw; p_builders := p_builders pw; p_clock := p_clock pw |}.

(** tx.go:96-107: the pointers are appended. *)
Definition p_add_inputs (pw : PWorld) (t : nat) (l : list nat) : PWorld :=
  let i := p_body pw t in
  let b := nth i (p_bodies pw) nil_pbody in
  with_bodies pw (upd (p_bodies pw) i {| p_ins := p_ins b ++ l; p_outs := p_outs b; p_fee := p_fee b; p_ttl := p_ttl b; p_aux := p_aux b |}).
Definition p_add_outputs (pw : PWorld) (t : nat) (l : list nat) : PWorld :=
  let i := p_body pw t in
  let b := nth i (p_bodies pw) nil_pbody in
  with_bodies pw (upd (p_bodies pw) i {| p_ins := p_ins b; p_outs := p_outs b ++ l; p_fee := p_fee b; p_ttl := p_ttl b; p_aux := p_aux b |}).

(** tx_input_output.go:19-27, 48-53: a new struct. A key comes from the caller's memory. *)
Definition new_input (pw : PWorld) (i : TxInput) : PWorld := with_heaps pw (p_inputs pw ++ [i]) (p_outputs pw) (p_keys pw).
Definition new_output (pw : PWorld) (o : TxOutput) : PWorld := with_heaps pw (p_inputs pw) (p_outputs pw ++ [o]) (p_keys pw).
Definition new_key (pw : PWorld) (k : bytes) : PWorld := with_heaps pw (p_inputs pw) (p_outputs pw) (p_keys pw ++ [k]).

(** tx_builder.go:130-136 *)
Definition p_new_builder (pw : PWorld) (fees : LinearFee) (keys : KeySlice) : PWorld :=
  {| p_inputs := p_inputs pw; p_outputs := p_outputs pw; p_keys := p_keys pw;
     p_txs := p_txs pw ++ [{| o_body := length (p_bodies pw); o_wit := length (p_wits pw); o_valid := true; o_meta := None |}];
     p_bodies := p_bodies pw ++ [nil_pbody]; p_wits := p_wits pw ++ [[]]; p_arrays := p_arrays pw;
     p_builders := p_builders pw ++ [{| b_tx := length (p_txs pw); b_keys := keys; b_fees := fees |}]; p_clock := p_clock pw |}.

(** tx_builder.go:18-20: the builder keeps the slice it is given. *)
Definition p_sign (pw : PWorld) (b : nat) (key : nat) : PWorld :=
  let bo := nth b (p_builders pw) nil_builder in
  let s := b_keys bo in
  let arr := nth (s_arr s) (p_arrays pw) [] in
  if (s_off s + s_len s <? length arr)%nat then
    with_arrays pw (upd (p_arrays pw) (s_arr s) (upd arr (s_off s + s_len s) (Some key)))
      (upd (p_builders pw) b {| b_tx := b_tx bo; b_keys := {| s_arr := s_arr s; s_off := s_off s; s_len := S (s_len s) |}; b_fees := b_fees bo |})
  else
    let keys := firstn (s_len s) (skipn (s_off s) arr) in
    with_arrays pw (p_arrays pw ++ [keys ++ [Some key] ++ repeat None (length keys)])
      (upd (p_builders pw) b {| b_tx := b_tx bo; b_keys := {| s_arr := length (p_arrays pw); s_off := 0; s_len := S (length keys) |}; b_fees := b_fees bo |}).

Section Pointers.
Context {C : TxCrypto} {MO : MapOrder}.

(** tx_builder.go:50-62: the change is a new TxOutput. *)
Definition p_add_change (pw : PWorld) (b : nat) (addr : Address) : PWorld :=
  let t := b_tx (nth b (p_builders pw) nil_builder) in
  let (w1, f) := run_min_fee (view pw) b in
  let b1 := set_fee (Body (load w1 t)) f in
  let pw1 := assign pw (put_body w1 (o_body (obj w1 t)) b1) in
  p_add_outputs (new_output pw1 {| OutAddress := addr; OutAmount := change_amount b1 |}) t [length (p_outputs pw1)].

(** What a caller can do. [PCall]: the functions that assign no pointers, that is SetFee, SetTTL, Bytes, Hash, Fee, MinFee, Build and
    the assignment of Metadata. [PSet…]: the caller writes through a pointer. *)
Inductive pop :=
| PNewInput (i : TxInput)
| PNewOutput (o : TxOutput)
| PNewKey (k : bytes)
| PMakeKeys (keys : list nat) (spare : nat)
| PNewBuilder (fees : LinearFee) (keys : KeySlice)
| PSign (b : nat) (key : nat)
| PAddInputs (t : nat) (l : list nat)
| PAddOutputs (t : nat) (l : list nat)
| PAddChange (b : nat) (addr : Address)
| PCall (o : op)
| PSetInput (r : nat) (i : TxInput)
| PSetOutput (r : nat) (o : TxOutput)
| PSetKey (r : nat) (k : bytes).

Definition pstep (pw : PWorld) (o : pop) : PWorld :=
  match o with
  | PNewInput i => new_input pw i
  | PNewOutput o => new_output pw o
  | PNewKey k => new_key pw k
  | PMakeKeys keys spare => with_arrays pw (p_arrays pw ++ [map Some keys ++ repeat None spare]) (p_builders pw)
  | PNewBuilder fees keys => p_new_builder pw fees keys
  | PSign b key => p_sign pw b key
  | PAddInputs t l => p_add_inputs pw t l
  | PAddOutputs t l => p_add_outputs pw t l
  | PAddChange b addr => p_add_change pw b addr
  | PCall o => assign pw (step (view pw) o)
  | PSetInput r i => with_heaps pw (upd (p_inputs pw) r i) (p_outputs pw) (p_keys pw)
  | PSetOutput r o => with_heaps pw (p_inputs pw) (upd (p_outputs pw) r o) (p_keys pw)
  | PSetKey r k => with_heaps pw (p_inputs pw) (p_outputs pw) (upd (p_keys pw) r k)
  end.

(** Handles and pointers that exist; a key keeps its length when it is overwritten. *)
Definition pvalid (pw : PWorld) (o : pop) : Prop :=
  match o with
  | PNewInput _ | PNewOutput _ | PNewKey _ => True
  | PMakeKeys keys _ => Forall (fun r => r < length (p_keys pw))%nat keys
  | PNewBuilder fees keys => valid_op (view pw) (ONewBuilder fees keys)
  | PSign b key => (b < length (p_builders pw) /\ key < length (p_keys pw))%nat
  | PAddInputs t l => (t < length (p_txs pw))%nat /\ Forall (fun r => r < length (p_inputs pw))%nat l
  | PAddOutputs t l => (t < length (p_txs pw))%nat /\ Forall (fun r => r < length (p_outputs pw))%nat l
  | PAddChange b _ => (b < length (p_builders pw))%nat
  | PCall o => valid_op (view pw) o /\
      match o with
      | OMakeKeys _ _ | ONewBuilder _ _ | OSign _ _ | OAddInputs _ _ | OAddOutputs _ _ | OAddChange _ _ => False
      | _ => True
      end
  | PSetInput r _ => (r < length (p_inputs pw))%nat
  | PSetOutput r _ => (r < length (p_outputs pw))%nat
  | PSetKey r k => (r < length (p_keys pw))%nat /\ length k = length (nth r (p_keys pw) [])
  end.
Definition prun (pw : PWorld) (l : list pop) : PWorld := fold_left pstep l pw.
Fixpoint pvalid_run (pw : PWorld) (l : list pop) : Prop :=
  match l with
  | [] => True
  | o :: r => pvalid pw o /\ pvalid_run (pstep pw o) r
  end.
End Pointers.
