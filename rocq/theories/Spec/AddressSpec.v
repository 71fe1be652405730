(** Well-formed Shelley addresses and what they should print as. Uses only the data types of the model. *)
From Verif.Model Require Import Base Network Address.
From Verif.Spec Require Import VarNatSpec Cip19.

Definition is_script (c : StakeCredential) : bool := Kind c =? 1.
Definition cred_ok (c : StakeCredential) : Prop := (Kind c = 0 \/ Kind c = 1) /\ hash28 (Payload c).
(** Cardano's main network and its test network of 2021: network id and protocol magic. *)
Definition main_network : NetworkInfo := {| NetworkId := 1; ProtocolMagic := 764824073 |}.
Definition test_network : NetworkInfo := {| NetworkId := 0; ProtocolMagic := 1097911063 |}.
Definition known_net (n : NetworkInfo) : Prop := n = main_network \/ n = test_network.
Definition ptr_ok (p : StakePointer) : Prop := uint64 (Slot p) /\ uint64 (TxIndex p) /\ uint64 (CertIndex p).

(** The network an address holds; a Byron address has one only through its attribute. *)
Definition net_of (a : Address) : NetworkInfo :=
  match a with
  | ABase b => ba_net b
  | AEnterprise e => ea_net e
  | AReward r => ra_net r
  | APointer p => pa_net p
  | AByron b => match by_network b with None => main_network | Some _ => test_network end
  end.

(** A Shelley address with valid parts. *)
Definition shelley_parts_ok (a : Address) : Prop :=
  match a with
  | ABase b => cred_ok (ba_pay b) /\ cred_ok (ba_stake b)
  | AEnterprise e => cred_ok (ea_pay e)
  | AReward r => cred_ok (ra_stake r)
  | APointer p => cred_ok (pa_pay p) /\ ptr_ok (pa_ptr p)
  | AByron _ => False
  end.
Definition shelley_ok (a : Address) : Prop := shelley_parts_ok a /\ known_net (net_of a).

Definition is_pointer (a : Address) : Prop := match a with APointer _ => True | _ => False end.
Definition is_byron (a : Address) : Prop := match a with AByron _ => True | _ => False end.
Definition is_base (a : Address) : Prop := match a with ABase _ => True | _ => False end.
Definition is_reward (a : Address) : Prop := match a with AReward _ => True | _ => False end.

(** The human-readable part CIP-5 gives to an address: test network (id 0) or main network. *)
Definition own_prefix (a : Address) : bytes :=
  match a with
  | AReward r => if NetworkId (ra_net r) =? 0 then str "stake_test" else str "stake"
  | AByron _ => []
  | _ => if NetworkId (net_of a) =? 0 then str "addr_test" else str "addr"
  end.

(** What CIP-19 says the bytes of an address are. *)
Definition cip19 (a : Address) (l : bytes) : Prop :=
  match a with
  | ABase b => l = base_layout (NetworkId (ba_net b)) (is_script (ba_pay b)) (is_script (ba_stake b))
                     (Payload (ba_pay b)) (Payload (ba_stake b))
  | AEnterprise e => l = enterprise_layout (NetworkId (ea_net e)) (is_script (ea_pay e)) (Payload (ea_pay e))
  | AReward r => l = reward_layout (NetworkId (ra_net r)) (is_script (ra_stake r)) (Payload (ra_stake r))
  | APointer p => pointer_layout (NetworkId (pa_net p)) (is_script (pa_pay p)) (Payload (pa_pay p))
                    (Slot (pa_ptr p)) (TxIndex (pa_ptr p)) (CertIndex (pa_ptr p)) l
  | AByron _ => False
  end.

(** The pointer part of some address bytes is three minimal items in the uint64 range. *)
Definition canonical_pointer (data : bytes) : Prop :=
  exists l1 l2 l3, skipn 29 data = l1 ++ l2 ++ l3 /\
    forall l, (l = l1 \/ l = l2 \/ l = l3) -> item128 l /\ minimal128 l /\ value128 l < 2 ^ 64.
