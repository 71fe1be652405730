(** Parts of the memory: which builders, transactions, bodies, witness lists and key arrays a goroutine works with. *)
From Verif.Model Require Import Base Cbor Address Tx Builder Concurrent.
Record region := { r_builder : nat -> Prop; r_tx : nat -> Prop; r_body : nat -> Prop; r_wit : nat -> Prop; r_array : nat -> Prop }.
Definition inside (D : region) (l : loc) : Prop :=
  match l with
  | LBTx b | LBKeys b | LBFees b => r_builder D b
  | LTBody t | LTWit t | LTValid t | LTMeta t => r_tx D t
  | LInputs b | LOutputs b | LFee b | LTTL b | LAux b | LRoom b => r_body D b
  | LWitness x => r_wit D x
  | LCap a | LKey a _ => r_array D a
  end.
(** Nothing inside refers to the outside. *)
Definition closed (D : region) (m : mem) : Prop :=
  (forall b, r_builder D b -> r_tx D (m (LBTx b)) /\ r_array D (s_arr (m (LBKeys b)))) /\
  (forall t, r_tx D t -> r_body D (m (LTBody t)) /\ r_wit D (m (LTWit t))).
(** The builder or transaction a call is made on, the keys given to a new builder, and the numbers of new objects are inside. *)
Definition op_inside (D : region) (o : op) : Prop :=
  match o with
  | OMakeKeys _ _ => True
  | ONewBuilder _ keys => r_array D (s_arr keys)
  | OSign b _ | OSetTTL b _ | OMinFee b | OAddChange b _ | OBuild b => r_builder D b
  | OAddInputs t _ | OAddOutputs t _ | OSetFee t _ | OSetMetadata t _ | OBytes t | OHash t | OFee t _ => r_tx D t
  end.
Definition env_inside (D : region) (e : env) : Prop :=
  r_builder D (e_builder e) /\ r_tx D (e_tx e) /\ r_body D (e_body e) /\ r_wit D (e_wit e) /\ r_array D (e_array e).
Definition disjoint (D D' : region) : Prop :=
  (forall x, ~ (r_builder D x /\ r_builder D' x)) /\ (forall x, ~ (r_tx D x /\ r_tx D' x)) /\ (forall x, ~ (r_body D x /\ r_body D' x)) /\
  (forall x, ~ (r_wit D x /\ r_wit D' x)) /\ (forall x, ~ (r_array D x /\ r_array D' x)).

(** The region of a goroutine in state w: the builders B, their transactions, bodies, witnesses and keys, and the numbers F for what it
    will create. *)
Definition region_of (w : World) (B F : nat -> Prop) : region :=
  let T t := (t < length (w_txs w))%nat /\ B (o_body (obj w t)) in
  {| r_builder := fun b => ((b < length (w_builders w))%nat /\ B b) \/ F b;
     r_tx := fun t => T t \/ F t;
     r_body := fun b => ((b < length (w_builders w))%nat /\ B b) \/ F b;
     r_wit := fun x => (exists t, T t /\ x = o_wit (obj w t)) \/ F x;
     r_array := fun a => (exists b, (b < length (w_builders w))%nat /\ B b /\ a = s_arr (b_keys (bld w b))) \/ F a |}.
(** Numbers that are not used yet. *)
Definition unused (w : World) (F : nat -> Prop) : Prop := forall n, F n ->
  (length (w_builders w) <= n /\ length (w_txs w) <= n /\ length (w_bodies w) <= n /\ length (w_wits w) <= n /\ length (w_arrays w) <= n)%nat.
(** The memory of state w, where objects that do not exist yet refer to themselves (creating one writes all its fields). *)
Definition start (w : World) : mem := fun l =>
  match l return val l with
  | LBTx b => if (b <? length (w_builders w))%nat then b_tx (bld w b) else b
  | LBKeys b => if (b <? length (w_builders w))%nat then b_keys (bld w b) else {| s_arr := b; s_off := 0; s_len := 0 |}
  | LTBody t => if (t <? length (w_txs w))%nat then o_body (obj w t) else t
  | LTWit t => if (t <? length (w_txs w))%nat then o_wit (obj w t) else t
  | LBFees b => b_fees (bld w b) | LTValid t => o_valid (obj w t) | LTMeta t => o_meta (obj w t)
  | LInputs b => Inputs (nth b (w_bodies w) NewTxBody) | LOutputs b => Outputs (nth b (w_bodies w) NewTxBody)
  | LFee b => Fee (nth b (w_bodies w) NewTxBody) | LTTL b => TTL (nth b (w_bodies w) NewTxBody) | LAux b => AuxHash (nth b (w_bodies w) NewTxBody)
  | LRoom _ => []
  | LWitness x => nth x (w_wits w) []
  | LCap a => length (nth a (w_arrays w) []) | LKey a i => nth i (nth a (w_arrays w) []) []
  end.
