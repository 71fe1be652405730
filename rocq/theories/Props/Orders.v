(** C24: a program meets the metadata maps in a new order each time it serialises a transaction, so Hash() right after Build can differ from
    the hash that Build signed. *)
From Verif.Model Require Import Base Bech32 Hex Cbor Network Address Tx Builder.
From Verif.Spec Require Import CborSpec TxSpec MdSpec.
From Verif.Proofs Require Import Util CborFacts AddressFacts AddressParse TxFacts HeapFacts HeapProps AuxFacts FeeFacts.
From Verif.Props Require Import Shelley Tx Builder.

(** The orders an operation may use are the numbers from the clock before it up to the clock after it: one for Hash and Build, two for Bytes
    and Fee (the hash and the bytes), five for MinFee; no order is used by two operations. *)
Theorem C24_orders : forall (C : TxCrypto) (MO : MapOrder) w o, w_clock (step w o) =
  (w_clock w + match o with OHash _ | OBuild _ => 1 | OBytes _ | OFee _ _ => 2 | OMinFee _ | OAddChange _ _ => 5 | _ => 0 end)%nat.
Proof.
  intros C MO w []; cbn [step]; try (symmetry; rewrite <- plus_n_O; reflexivity).
  - unfold sign_with. rewrite <- plus_n_O. repeat match goal with |- context [if ?c then _ else _] => destruct c end; reflexivity.
  - unfold run_bytes. destruct (tx_bytes _ _). reflexivity.
  - unfold run_hash. destruct (tx_hash _ _). reflexivity.
  - unfold run_fee. destruct (tx_fee _ _ _). reflexivity.
  - unfold run_min_fee. destruct (min_fee _ _ _). reflexivity.
  - unfold add_change_if_needed, run_min_fee. destruct (min_fee _ _ _). reflexivity.
  - unfold build, run_hash. destruct (tx_hash _ _) as [x [h | e |]]; try reflexivity. destruct (sign_all _ _); reflexivity.
Qed.
Print Assumptions C24_orders.
(** The first call of Hash() on what Build returns, in the same program. *)
Theorem C24_next_refuted : forall (C : TxCrypto) (MO : MapOrder) w b w' t' m, runtime_order -> hash_ok -> reachable w -> (b < nbuilders w)%nat ->
  tx_ok (builder_tx w b) -> Metadata (builder_tx w b) = Some m -> build w b = (w', Ok t') ->
  md_item (map_order (w_clock w) m) <> md_item (map_order (S (w_clock w)) m) ->
  collision (cbor (md_item (map_order (w_clock w) m))) (cbor (md_item (map_order (S (w_clock w)) m))) \/
  collision (cbor (the_body (fst (tx_hash (w_clock w) (builder_tx w b))))) (cbor (the_body (fst (tx_hash (S (w_clock w)) (builder_tx w b))))) \/
  exists signed later, Forall2 (fun key x => key_public key = Ok (VKey x) /\ key_sign key signed = Ok (Signature x)) (builder_keys w b) (Witness (load w' t')) /\
    snd (run_hash w' t') = Ok later /\ later <> signed.
Proof.
  intros C MO w b w' t' m RO HO R Hb K E EB N.
  assert (CK : w_clock w' = S (w_clock w)). { pose proof (C24_orders C MO w (OBuild b)) as Q. cbn [step] in Q. rewrite EB in Q. cbn [fst] in Q. rewrite Q, PeanoNat.Nat.add_1_r. reflexivity. }
  destruct (C24_order_refuted C MO w b w' t' m (S (w_clock w)) RO HO R Hb K E EB N) as [Q | [Q | (x & y & H1 & H2 & H3)]]; [left; exact Q | right; left; exact Q | right; right].
  exists x, y. split; [exact H1 |]. split; [| exact H3]. unfold run_hash. rewrite CK. destruct (tx_hash (S (w_clock w)) (load w' t')). exact H2.
Qed.
Print Assumptions C24_next_refuted.
(** The program of [C24_order_example] satisfies the hypotheses, and its signed hash is not the one Hash() returns next. *)
Section ExNext.
#[local] Existing Instance ex_crypto.
#[local] Existing Instance alternating.
Example C24_next_example : let w := run empty_world ex_ordered in let (w', r) := build w 0 in
  r = Ok 1%nat /\ w_clock w' = S (w_clock w) /\ md_item (map_order (w_clock w) ex_two) <> md_item (map_order (S (w_clock w)) ex_two) /\
  snd (run_hash w 0) <> snd (run_hash w' 1) /\ snd (run_hash w 0) = snd (run_hash (fst (run_hash w' 1)) 1).
Proof. vm_compute. repeat split; try reflexivity; discriminate. Qed.
End ExNext.
