(** CIP-19 Shelley address layout, independent of the model. *)
From Coq Require Import ZArith List Bool.
From Verif.Spec Require Import VarNatSpec.
Import ListNotations. Open Scope Z_scope.

(** A credential: script or key, and its 28-byte hash. *)
Definition hash28 (h : list Z) : Prop := length h = 28%nat /\ forall b, In b h -> 0 <= b < 256.
Definition script_bit (script : bool) : Z := if script then 1 else 0.

(** Header byte: the address type in the high four bits, the network id in the low four. *)
Definition header (addr_type network_id : Z) : Z := 16 * addr_type + network_id.

Definition base_layout (net : Z) (pay_script stake_script : bool) (pay stake : list Z) : list Z :=
  header (script_bit pay_script + 2 * script_bit stake_script) net :: pay ++ stake.
Definition enterprise_layout (net : Z) (script : bool) (pay : list Z) : list Z :=
  header (6 + script_bit script) net :: pay.
Definition reward_layout (net : Z) (script : bool) (stake : list Z) : list Z :=
  header (14 + script_bit script) net :: stake.

(** A pointer address ends with three minimal variable-length naturals. *)
Definition nat_layout (n : Z) (l : list Z) : Prop := item128 l /\ minimal128 l /\ value128 l = n.
Definition pointer_layout (net : Z) (script : bool) (pay : list Z) (slot tx cert : Z) (l : list Z) : Prop :=
  exists l1 l2 l3, nat_layout slot l1 /\ nat_layout tx l2 /\ nat_layout cert l3 /\
    l = header (4 + script_bit script) net :: pay ++ l1 ++ l2 ++ l3.

Definition uint64 (n : Z) : Prop := 0 <= n < 2 ^ 64.
