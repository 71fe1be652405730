(** Data races (https://go.dev/ref/mem): two accesses of one location, at least one of them a write. *)
From Verif.Model Require Import Base Cbor Address Tx Builder Concurrent.
Definition race (p q : list access) : Prop :=
  exists l, (In (W l) p /\ (In (W l) q \/ In (R l) q)) \/ (In (R l) p /\ In (W l) q).

(** The memory of a state of Model/Builder.v, which says nothing about spare capacity behind outputs. *)
Definition mem_of (w : World) : mem := fun l =>
  match l with
  | LBTx b => b_tx (bld w b) | LBKeys b => b_keys (bld w b) | LBFees b => b_fees (bld w b)
  | LTBody t => o_body (obj w t) | LTWit t => o_wit (obj w t) | LTValid t => o_valid (obj w t) | LTMeta t => o_meta (obj w t)
  | LInputs b => Inputs (nth b (w_bodies w) NewTxBody) | LOutputs b => Outputs (nth b (w_bodies w) NewTxBody)
  | LFee b => Fee (nth b (w_bodies w) NewTxBody) | LTTL b => TTL (nth b (w_bodies w) NewTxBody) | LAux b => AuxHash (nth b (w_bodies w) NewTxBody)
  | LRoom _ => []
  | LWitness x => nth x (w_wits w) []
  | LCap a => length (nth a (w_arrays w) []) | LKey a i => nth i (nth a (w_arrays w) []) []
  end.
Definition is_room (l : loc) : Prop := match l with LRoom _ => True | _ => False end.
(** The environment of a call in state w: objects are numbered in the order of their creation. *)
Definition env_of (w : World) (room : bool) : env :=
  {| e_clock := w_clock w; e_room := room; e_builder := length (w_builders w); e_tx := length (w_txs w); e_body := length (w_bodies w);
     e_wit := length (w_wits w); e_array := length (w_arrays w) |}.
Section Reply.
Context {C : TxCrypto} {MO : MapOrder}.
(** What the calls return in Model/Builder.v. *)
Definition reply_of (w : World) (o : op) : reply :=
  match o with
  | OBytes t => BytesReply (snd (run_bytes w t))
  | OHash t => BytesReply (snd (run_hash w t))
  | OFee t lfee => FeeReply (snd (run_fee w t lfee))
  | OMinFee b => MinFeeReply (snd (run_min_fee w b))
  | OBuild b => BuildReply (snd (build w b))
  | _ => NoReply
  end.
End Reply.
(** Numbers for fresh objects: unused in w, and different for two calls at once. *)
Definition fresh_env (w : World) (e : env) : Prop :=
  (length (w_builders w) <= e_builder e /\ length (w_txs w) <= e_tx e /\ length (w_bodies w) <= e_body e /\ length (w_wits w) <= e_wit e /\ length (w_arrays w) <= e_array e)%nat.
Definition apart (e e' : env) : Prop :=
  e_builder e <> e_builder e' /\ e_tx e <> e_tx e' /\ e_body e <> e_body e' /\ e_wit e <> e_wit e' /\ e_array e <> e_array e'.
