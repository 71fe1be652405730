(** Metadata that the caller keeps: the field Metadata of a Tx (tx.go:17) is an interface{}, so a map, slice or pointer assigned to it
    is shared with the caller and with the copies that Build returns (tx_builder.go:41, [return *tb.tx]), and the caller can
    write to it at any time.

    Not modelled: maps shared in part (one map inside two others), and writes during a marshalling. *)
From Verif.Model Require Import Base Cbor Address Tx Builder.

Section SharedMeta.
Context {C : TxCrypto} {MO : MapOrder}.

(** The state of Builder.v, which map each transaction's Metadata is (None for nil), and the contents of the caller's maps. *)
Record MWorld := { m_world : World; m_refs : list (option nat); m_maps : list md }.
Definition m_empty : MWorld := {| m_world := empty_world; m_refs := []; m_maps := [] |}.

Definition ref_of (mw : MWorld) (t : nat) : option nat := nth t (m_refs mw) None.
Definition holds (mw : MWorld) (r t : nat) : bool := match ref_of mw t with Some s => (s =? r)%nat | None => false end.
(** The transactions whose Metadata is map r. *)
Definition holders (mw : MWorld) (r : nat) : list nat := filter (holds mw r) (seq 0 (length (m_refs mw))).
Definition show (w : World) (l : list nat) (m : md) : World := fold_left (fun w t => set_metadata w t (Some m)) l w.

(** What the transactions made by a call refer to: NewTxBuilder leaves Metadata nil, Build copies the struct. *)
Definition new_refs (mw : MWorld) (o : op) : list (option nat) :=
  match o with
  | ONewBuilder _ _ => [None]
  | OBuild b => match snd (build (m_world mw) b) with Ok _ => [ref_of mw (b_tx (bld (m_world mw) b))] | _ => [] end
  | _ => []
  end.

(** [MNew m]: the caller makes a map. [MAssign t r]: t.Metadata = r (or nil). [MWrite r m]: the caller writes to map r, which then holds m.
    [MCall o]: a call into the library. *)
Inductive mop :=
| MNew (m : md)
| MAssign (t : nat) (r : option nat)
| MWrite (r : nat) (m : md)
| MCall (o : op).

Definition mstep (mw : MWorld) (o : mop) : MWorld :=
  match o with
  | MNew m => {| m_world := m_world mw; m_refs := m_refs mw; m_maps := m_maps mw ++ [m] |}
  | MAssign t r => {| m_world := set_metadata (m_world mw) t (match r with Some r => nth_error (m_maps mw) r | None => None end);
                      m_refs := upd (m_refs mw) t r; m_maps := m_maps mw |}
  | MWrite r m => {| m_world := show (m_world mw) (holders mw r) m; m_refs := m_refs mw; m_maps := upd (m_maps mw) r m |}
  | MCall o => {| m_world := step (m_world mw) o; m_refs := m_refs mw ++ new_refs mw o; m_maps := m_maps mw |}
  end.
Definition mvalid (mw : MWorld) (o : mop) : Prop :=
  match o with
  | MNew _ => True
  | MAssign t r => (t < length (w_txs (m_world mw)))%nat /\ match r with Some r => (r < length (m_maps mw))%nat | None => True end
  | MWrite r _ => (r < length (m_maps mw))%nat
  | MCall o => valid_op (m_world mw) o /\ match o with OSetMetadata _ _ => False | _ => True end
  end.
Definition mrun (mw : MWorld) (l : list mop) : MWorld := fold_left mstep l mw.
Fixpoint mvalid_run (mw : MWorld) (l : list mop) : Prop :=
  match l with
  | [] => True
  | o :: r => mvalid mw o /\ mvalid_run (mstep mw o) r
  end.
Definition m_reachable (mw : MWorld) : Prop := exists l, mvalid_run m_empty l /\ mw = mrun m_empty l.
End SharedMeta.
