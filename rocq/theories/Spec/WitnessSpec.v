(** The key witnesses a transaction needs: the hashes of the keys that own what it spends, independent of the model. [hash] is the
    hash of a key (BLAKE2b-224). *)
From Coq Require Import ZArith List.

Section Witness.
Variable hash : list Z -> list Z.
(** every owner has signed *)
Definition covers (owners vkeys : list (list Z)) : Prop := forall h, In h owners -> exists v, In v vkeys /\ hash v = h.
(** nobody else has *)
Definition needed (owners vkeys : list (list Z)) : Prop := forall v, In v vkeys -> In (hash v) owners.
(** and nobody twice: the ledger has a set of witnesses *)
Definition once (vkeys : list (list Z)) : Prop := NoDup vkeys.
Definition exactly_needed (owners vkeys : list (list Z)) : Prop := covers owners vkeys /\ needed owners vkeys /\ once vkeys.
End Witness.
