(** C24, C26-C31, C33-C35: the transaction builder, for all histories of calls. *)
From Verif.Model Require Import Base Bech32 Hex Cbor Network Address Tx Builder.
From Verif.Spec Require Import CborSpec TxSpec MdSpec.
From Verif.Proofs Require Import Util CborFacts AddressFacts AddressParse TxFacts HeapFacts HeapProps AuxFacts FeeFacts.
From Verif.Props Require Import Shelley Tx.

(** ** C24, C30: what Build returns *)
Theorem C24_build : forall (C : TxCrypto) (MO : MapOrder) w b w' t', reachable w -> (b < nbuilders w)%nat -> build w b = (w', Ok t') ->
  exists s, body_marshal (Body (load w' t')) = Ok s /\
    Forall2 (fun key x => key_public key = Ok (VKey x) /\ key_sign key (blake2b256 s) = Ok (Signature x)) (builder_keys w b) (Witness (load w' t')) /\
    (Inputs (Body (load w' t')), Outputs (Body (load w' t')), Fee (Body (load w' t')), TTL (Body (load w' t'))) =
      (Inputs (Body (builder_tx w b)), Outputs (Body (builder_tx w b)), Fee (Body (builder_tx w b)), TTL (Body (builder_tx w b))) /\
    Metadata (load w' t') = Metadata (builder_tx w b) /\ Valid (load w' t') = Valid (builder_tx w b) /\ builder_tx w' b = load w' t'.
Proof.
  intros C MO w b w' t' R Hb E. destruct (build_loads w b w' t' (reachable_inv w R) Hb E) as (h & ws & H1 & H2 & H3 & H4 & _).
  destruct (tx_hash_body _ _ _ H1) as (s & Es & ->). exists s. rewrite H4, H3. cbn [Body Witness Metadata Valid]. split; [exact Es |].
  split; [apply sign_all_forall2; exact H2 |]. split; [apply (tx_hash_core (w_clock w) (builder_tx w b)) |]. auto.
Qed.
Print Assumptions C24_build.
(** The signed hash is the returned transaction's own Hash(), now and later. Missing: metadata maps with two
    entries, for which it is false ([C24_order_refuted]). *)
Theorem C24_hash_partial : forall (C : TxCrypto) (MO : MapOrder) w b w' t', runtime_order -> reachable w -> (b < nbuilders w)%nat ->
  meta_free (Metadata (builder_tx w b)) -> build w b = (w', Ok t') ->
  exists h, (forall n, snd (tx_hash n (load w' t')) = Ok h) /\
    Forall2 (fun key x => key_public key = Ok (VKey x) /\ key_sign key h = Ok (Signature x)) (builder_keys w b) (Witness (load w' t')).
Proof.
  intros C MO w b w' t' RO R Hb F E. destruct (build_loads w b w' t' (reachable_inv w R) Hb E) as (h & ws & H1 & H2 & H3 & _). exists h.
  rewrite H3. split; [| apply sign_all_forall2; exact H2]. intros n. destruct (tx_hash_free (w_clock w) n _ h RO F H1) as [Q _].
  rewrite <- H1. rewrite <- Q. f_equal. apply tx_hash_meta; cbn [Body Metadata with_body]; [rewrite Q |]; reflexivity.
Qed.
Print Assumptions C24_hash_partial.
Theorem C24_rebuild_partial : forall (C : TxCrypto) (MO : MapOrder) w b w1 t1 w2 t2, runtime_order -> reachable w -> (b < nbuilders w)%nat ->
  meta_free (Metadata (builder_tx w b)) -> build w b = (w1, Ok t1) -> build w1 b = (w2, Ok t2) -> load w2 t2 = load w1 t1.
Proof. intros C MO w b w1 t1 w2 t2 RO R Hb. apply rebuild; auto. apply reachable_inv; auto. Qed.
Print Assumptions C24_rebuild_partial.
(** The keys sign the hash of the body with the metadata in the order met by Build; Hash() later returns the hash for the order it meets itself. *)
Theorem C24_order_exact : forall (C : TxCrypto) (MO : MapOrder) w b w' t' m, runtime_order -> hash_ok -> reachable w -> (b < nbuilders w)%nat ->
  tx_ok (builder_tx w b) -> Metadata (builder_tx w b) = Some m -> build w b = (w', Ok t') ->
  let bytes n := let x := Body (builder_tx w b) in cbor (body_item (map in_pair (Inputs x)) (map out_item (Outputs x)) (Fee x) (TTL x) (blake2b256 (cbor (md_item (map_order n m))))) in
  Forall2 (fun key x => key_public key = Ok (VKey x) /\ key_sign key (blake2b256 (bytes (w_clock w))) = Ok (Signature x)) (builder_keys w b) (Witness (load w' t')) /\
  forall n, snd (tx_hash n (load w' t')) = Ok (blake2b256 (bytes n)).
Proof.
  intros C MO w b w' t' m RO HO R Hb K E EB bytes.
  pose proof (build_loads w b w' t' (reachable_inv w R) Hb EB) as (h & ws & H1 & H2 & H3 & _).
  rewrite (tx_hash_spec _ _ RO HO K) in H1, H3. cbn [fst snd] in H1, H3. apply Ok_inj in H1. unfold aux_body in H1, H3. rewrite E in H1, H3.
  split; [rewrite H3; cbn [Witness]; apply sign_all_forall2; rewrite <- H2; f_equal; exact H1 |].
  intros n. transitivity (snd (tx_hash n (builder_tx w b))).
  - unfold tx_hash, after_aux, calc_aux. rewrite H3. cbn [Body Metadata]. rewrite E. destruct (enc_md (map_order n m)); reflexivity.
  - rewrite (tx_hash_spec n _ RO HO K). cbn [snd]. unfold aux_body. rewrite E. reflexivity.
Qed.
Print Assumptions C24_order_exact.
(** So Hash() is not what was signed whenever the two orders differ in the encoding, up to collisions of the encodings involved. *)
Theorem C24_order_refuted : forall (C : TxCrypto) (MO : MapOrder) w b w' t' m n, runtime_order -> hash_ok -> reachable w -> (b < nbuilders w)%nat ->
  tx_ok (builder_tx w b) -> Metadata (builder_tx w b) = Some m -> build w b = (w', Ok t') -> md_item (map_order (w_clock w) m) <> md_item (map_order n m) ->
  collision (cbor (md_item (map_order (w_clock w) m))) (cbor (md_item (map_order n m))) \/
  collision (cbor (the_body (fst (tx_hash (w_clock w) (builder_tx w b))))) (cbor (the_body (fst (tx_hash n (builder_tx w b))))) \/
  exists signed later, Forall2 (fun key x => key_public key = Ok (VKey x) /\ key_sign key signed = Ok (Signature x)) (builder_keys w b) (Witness (load w' t')) /\
    snd (tx_hash n (load w' t')) = Ok later /\ later <> signed.
Proof.
  intros C MO w b w' t' m n RO HO R Hb K E EB N. destruct (C24_order_exact C MO w b w' t' m RO HO R Hb K E EB) as [H1 H2].
  rewrite !(tx_hash_spec _ _ RO HO K). cbn [fst]. pose proof (proj2 (proj2 K)) as KM. rewrite E in KM. cbn [meta_ok] in KM.
  assert (D0 : cbor (md_item (map_order (w_clock w) m)) <> cbor (md_item (map_order n m))).
  { intros Q. apply cbor_inj in Q; [exact (N Q) | |]; apply md_item_ok, (md_perm_ok m KM), RO. }
  destruct (list_eq_dec Z.eq_dec (blake2b256 (cbor (md_item (map_order (w_clock w) m)))) (blake2b256 (cbor (md_item (map_order n m))))) as [Q | NQ].
  { left. split; assumption. }
  right. set (b0 := aux_body (w_clock w) (builder_tx w b)). set (b1 := aux_body n (builder_tx w b)).
  assert (A0 : body_ok b0) by (apply aux_body_ok; [exact HO | apply K]). assert (A1 : body_ok b1) by (apply aux_body_ok; [exact HO | apply K]).
  assert (D : cbor (the_body b0) <> cbor (the_body b1)).
  { intros Q. apply cbor_inj in Q; try (apply the_body_ok; auto). apply the_body_inj in Q as (_ & _ & _ & _ & Q); auto.
    unfold b0, b1, aux_body in Q. rewrite E in Q. apply NQ. exact Q. }
  destruct (list_eq_dec Z.eq_dec (blake2b256 (cbor (the_body b0))) (blake2b256 (cbor (the_body b1)))) as [Q | N'].
  { left. split; assumption. }
  right. exists (blake2b256 (cbor (the_body b0))), (blake2b256 (cbor (the_body b1))). unfold b0, b1, aux_body in *. rewrite E in *.
  split; [exact H1 |]. split; [apply H2 |]. intros Q. apply N'. symmetry. exact Q.
Qed.
Print Assumptions C24_order_refuted.

(** The keys are those supplied, in order, when each slice of keys was given to one builder only. *)
Fixpoint fresh_run {C : TxCrypto} {MO : MapOrder} (w : World) (l : list op) : Prop :=
  match l with [] => True | o :: r => fresh_slice w o /\ fresh_run (step w o) r end.
Fixpoint supplied {C : TxCrypto} {MO : MapOrder} (w : World) (l : list op) (b : nat) : list bytes :=
  match l with
  | [] => []
  | o :: r => match o with
              | ONewBuilder _ s => if Nat.eqb b (nbuilders w) then slice_keys w s else []
              | OSign b' k => if Nat.eqb b b' then [k] else []
              | _ => []
              end ++ supplied (step w o) r b
  end.
Theorem C24_keys_partial : forall (C : TxCrypto) (MO : MapOrder) l, valid_run empty_world l -> fresh_run empty_world l ->
  let w := run empty_world l in forall b, (b < nbuilders w)%nat -> builder_keys w b = supplied empty_world l b.
Proof.
  intros C MO l V F w b Hb. subst w.
  assert (G : forall l w, Inv w -> unshared w -> valid_run w l -> fresh_run w l -> (b < nbuilders (run w l))%nat ->
    builder_keys (run w l) b = (if (b <? nbuilders w)%nat then builder_keys w b else []) ++ supplied w l b).
  { clear. induction l as [| o l IH]; intros w I U V F Hb; cbn [supplied run fold_left valid_run fresh_run] in *.
    - unfold run in *. cbn in Hb. destruct (Nat.ltb_spec b (nbuilders w)); [rewrite app_nil_r; reflexivity | lia].
    - destruct V as [V1 V], F as [F1 F]. pose proof (inv_step w o I V1) as I'. pose proof (unshared_step w o I V1 F1 U) as U'.
      unfold run in *. rewrite IH by auto. rewrite nbuilders_step. rewrite app_assoc. f_equal.
      destruct (match o with ONewBuilder _ _ => true | _ => false end) eqn:EN.
      + destruct o; try discriminate. cbn [step]. destruct (Nat.ltb_spec b (nbuilders w)) as [L | L].
        * assert (Nat.ltb b (S (nbuilders w)) = true) as -> by (apply Nat.ltb_lt; lia). pose proof (keys_step w (ONewBuilder fees keys) b I V1 U L) as Q. cbn [step signed] in Q. rewrite Q.
          destruct (Nat.eqb_spec b (nbuilders w)); [lia | reflexivity].
        * destruct (Nat.eqb_spec b (nbuilders w)) as [-> | N].
          -- assert (Nat.ltb (nbuilders w) (S (nbuilders w)) = true) as -> by (apply Nat.ltb_lt; lia). unfold builder_keys, bld, new_tx_builder. cbn. unfold nbuilders. rewrite nth_app_last. reflexivity.
          -- destruct (Nat.ltb_spec b (S (nbuilders w))); [lia | reflexivity].
      + replace (match o with ONewBuilder _ _ => S (nbuilders w) | _ => nbuilders w end) with (nbuilders w) by (destruct o; auto; discriminate).
        destruct (Nat.ltb_spec b (nbuilders w)) as [L | L].
        * rewrite keys_step by auto. f_equal. destruct o; try reflexivity. discriminate.
        * destruct o; try reflexivity; try discriminate. cbn [valid_op] in V1. destruct (Nat.eqb_spec b b0); [unfold nbuilders in *; lia | reflexivity]. }
  rewrite (G l empty_world) by (auto using inv_empty; try apply inv_empty; intros x y Hx; cbn in Hx; lia). reflexivity.
Qed.
Print Assumptions C24_keys_partial.

Theorem C30_only_own_keys : forall (C : TxCrypto) (MO : MapOrder) w b w' t', reachable w -> (b < nbuilders w)%nat -> build w b = (w', Ok t') ->
  length (Witness (load w' t')) = length (builder_keys w b) /\
  exists h, forall x, In x (Witness (load w' t')) -> exists key, In key (builder_keys w b) /\ key_public key = Ok (VKey x) /\ key_sign key h = Ok (Signature x).
Proof.
  intros C MO w b w' t' R Hb E. destruct (C24_build C MO w b w' t' R Hb E) as (s & _ & F & _). split; [symmetry; apply (Forall2_len _ _ _ F) |].
  exists (blake2b256 s). induction F as [| k y ks ys H _ IH]; [intros x [] |]. intros x [<- | Hx]; [exists k; split; [left |]; auto |].
  destruct (IH x Hx) as (k' & ? & ?). exists k'. split; [right |]; auto.
Qed.
Print Assumptions C30_only_own_keys.

Section Ex24.
#[local] Existing Instance ex_crypto.
#[local] Existing Instance id_order.
(** A history for the examples: two keys, one input, one output, change, then Build. *)
Definition ex_fees : LinearFee := {| TxFeePerByte := 44; TxFeeFixed := 155381 |}.
Definition ex_input (v : Z) : TxInput := {| TxHash := repeat 9 32; Index := 1; InAmount := v |}.
Definition ex_addr : Address := placeholder_addr.
Definition ex_history (keys : list bytes) (i o : Z) : list op :=
  [OMakeKeys keys 0; ONewBuilder ex_fees {| s_arr := 0; s_off := 0; s_len := length keys |}; OAddInputs 0 [ex_input i];
   OAddOutputs 0 [ex_out TestNet o]; OSetTTL 0 5000; OMinFee 0; OAddChange 0 ex_addr].
Definition ex_keys : list bytes := [repeat 7 96; repeat 8 96].
Definition ex_world : World := run empty_world (ex_history ex_keys 5000000 1000000).
Lemma ex_reachable keys i o : reachable (run empty_world (ex_history keys i o)).
Proof.
  exists (ex_history keys i o). split; [| reflexivity]. cbn [valid_run ex_history]. split; [exact Logic.I |]. split; [cbn; rewrite app_nil_r; lia |].
  repeat (split; [cbv [step make_keys new_tx_builder]; cbn; lia |]). exact Logic.I.
Qed.
Example C30_example : reachable ex_world /\ length (Witness (builder_tx ex_world 0)) = 1%nat /\ length (builder_keys ex_world 0) = 2%nat.
Proof. split; [apply ex_reachable | split; vm_compute; reflexivity]. Qed.
Example C24_keys_example : valid_run empty_world (ex_history ex_keys 5000000 1000000) /\ fresh_run empty_world (ex_history ex_keys 5000000 1000000) /\
  supplied empty_world (ex_history ex_keys 5000000 1000000) 0 = ex_keys /\ meta_free (Metadata (builder_tx ex_world 0)).
Proof.
  split; [| split; [| split; vm_compute; auto]].
  - cbn [valid_run ex_history]. split; [exact Logic.I |]. split; [cbn; lia |].
    repeat (split; [cbv [step make_keys new_tx_builder]; cbn; lia |]). exact Logic.I.
  - cbn [fresh_run ex_history fresh_slice]. split; [exact Logic.I |]. split; [intros b H; cbn in H; lia |]. repeat (split; [exact Logic.I |]). exact Logic.I.
Qed.
Example C24_example : reachable ex_world /\ (0 < nbuilders ex_world)%nat /\ exists w t, build ex_world 0 = (w, Ok t) /\ length (Witness (load w t)) = 2%nat.
Proof. split; [apply ex_reachable |]. split; [vm_compute; lia |]. do 2 eexists. vm_compute. split; reflexivity. Qed.
End Ex24.

(** ** C31 *)
Fixpoint all_inputs {C : TxCrypto} {MO : MapOrder} (w : World) (l : list op) (b : nat) : list TxInput :=
  match l with [] => [] | o :: r => added_inputs w o b ++ all_inputs (step w o) r b end.
Fixpoint all_outputs {C : TxCrypto} {MO : MapOrder} (w : World) (l : list op) (b : nat) : list TxOutput :=
  match l with [] => [] | o :: r => added_outputs w o b ++ all_outputs (step w o) r b end.
Fixpoint last_fee {C : TxCrypto} {MO : MapOrder} (w : World) (l : list op) (b : nat) (f : Z) : Z :=
  match l with [] => f | o :: r => last_fee (step w o) r b (new_fee w o b f) end.
Fixpoint last_ttl {C : TxCrypto} {MO : MapOrder} (w : World) (l : list op) (b : nat) (x : Z) : Z :=
  match l with [] => x | o :: r => last_ttl (step w o) r b (new_ttl w o b x) end.
Theorem C31_accumulate : forall (C : TxCrypto) (MO : MapOrder) l, valid_run empty_world l ->
  let w := run empty_world l in forall b, (b < nbuilders w)%nat ->
  let body := Body (builder_tx w b) in
  Inputs body = all_inputs empty_world l b /\ Outputs body = all_outputs empty_world l b /\
  Fee body = last_fee empty_world l b 0 /\ TTL body = last_ttl empty_world l b 0.
Proof.
  intros C MO l V w b Hb body.
  assert (G : forall l w, Inv w -> valid_run w l -> core (body_of (run w l) b) =
     (Inputs (body_of w b) ++ all_inputs w l b, Outputs (body_of w b) ++ all_outputs w l b, last_fee w l b (Fee (body_of w b)), last_ttl w l b (TTL (body_of w b)))).
  { clear. induction l as [| o l IH]; intros w I V; cbn [run fold_left valid_run all_inputs all_outputs last_fee last_ttl] in *.
    - rewrite !app_nil_r. reflexivity.
    - destruct V as [V1 V]. unfold run in *. rewrite IH by (auto using inv_step). pose proof (core_step w o b I V1) as E. apply core_split in E as (-> & -> & -> & ->).
      rewrite !app_assoc. reflexivity. }
  specialize (G l empty_world inv_empty V). fold w in G. apply core_split in G.
  assert (E : body = body_of w b).
  { unfold body, builder_tx. rewrite load_body. assert (I : Inv w) by (apply inv_run; auto using inv_empty). destruct (inv_builders w I b Hb) as (_ & -> & _). reflexivity. }
  rewrite E. assert (Z : body_of empty_world b = NewTxBody) by (unfold body_of; cbn; destruct b; reflexivity). rewrite Z in G. exact G.
Qed.
Print Assumptions C31_accumulate.
(** What counts as added, spelled out: an operation on any transaction handle that belongs to the builder
    (its own transaction, or one it built), and for change the output AddChangeIfNeeded computes. *)
Theorem C31_added : forall (C : TxCrypto) (MO : MapOrder) w b,
  (forall t l, added_inputs w (OAddInputs t l) b = if Nat.eqb b (o_body (obj w t)) then l else []) /\
  (forall t l, added_outputs w (OAddOutputs t l) b = if Nat.eqb b (o_body (obj w t)) then l else []) /\
  (forall b' a, added_outputs w (OAddChange b' a) b = if Nat.eqb b b' then [change_output w b' a] else []) /\
  (forall b' a, OutAddress (change_output w b' a) = a /\
     let body := Body (builder_tx w b') in OutAmount (change_output w b' a) = (sum_in body - sum_out body - mf w b') mod 2 ^ 64) /\
  (forall o, (forall t l, o <> OAddInputs t l) -> added_inputs w o b = []) /\
  (forall o, (forall t l, o <> OAddOutputs t l) -> (forall b' a, o <> OAddChange b' a) -> added_outputs w o b = []).
Proof.
  intros C MO w b. repeat split; auto.
  - intros [] H; cbn; auto. destruct (H t l); auto.
  - intros [] H H'; cbn; auto; [destruct (H t l) | destruct (H' b0 addr)]; auto.
Qed.
Print Assumptions C31_added.
Section Ex24b.
#[local] Existing Instance ex_crypto.
#[local] Existing Instance alternating.
Definition ex_ordered : list op :=
  [OMakeKeys ex_keys 0; ONewBuilder ex_fees {| s_arr := 0; s_off := 0; s_len := 2 |}; OAddInputs 0 [ex_input 5000000]; OSetTTL 0 5000; OSetMetadata 0 (Some ex_two)].
Example C24_order_example : let w := run empty_world ex_ordered in
  valid_run empty_world ex_ordered /\ tx_ok (builder_tx w 0) /\ Metadata (builder_tx w 0) = Some ex_two /\
  (exists w' t', build w 0 = (w', Ok t') /\ snd (tx_hash (w_clock w) (load w' t')) <> snd (tx_hash (w_clock w') (load w' t'))) /\
  md_item (map_order (w_clock w) ex_two) <> md_item (map_order (S (w_clock w)) ex_two).
Proof.
  intros w. split; [| split; [| split; [| split]]].
  - unfold ex_ordered. cbn [valid_run app]. split; [exact Logic.I |]. split; [cbn; lia |].
    repeat (split; [cbv [step make_keys new_tx_builder]; cbn; lia |]). exact Logic.I.
  - assert (E : builder_tx w 0 = {| Body := {| Inputs := [ex_input 5000000]; Outputs := []; Fee := 0; TTL := 5000; AuxHash := [] |}; Witness := []; Valid := true; Metadata := Some ex_two |}) by reflexivity.
    rewrite E. split; [| split; [split; [constructor | reflexivity] | apply (proj2 (proj2 ex_tx2_ok))]].
    split; [|split; [constructor | split; [reflexivity | split; [reflexivity | split; [cbn; lia | split; [cbn; lia | split; [intros x [] | reflexivity]]]]]]].
    constructor; [| constructor]. split; [apply bytes_repeat; lia |]. split; [reflexivity | cbn; lia].
  - reflexivity.
  - do 2 eexists. split; [vm_compute; reflexivity | vm_compute; discriminate].
  - vm_compute. discriminate.
Qed.
End Ex24b.
Section Ex31.
#[local] Existing Instance ex_crypto.
#[local] Existing Instance id_order.
Example C31_example : length (Outputs (Body (builder_tx ex_world 0))) = 2%nat /\ TTL (Body (builder_tx ex_world 0)) = 5000 /\
  all_inputs empty_world (ex_history ex_keys 5000000 1000000) 0 = [ex_input 5000000].
Proof. repeat split; vm_compute; reflexivity. Qed.
End Ex31.

(** ** C33: which auxiliary data hash a transaction carries, for all histories *)
Fixpoint last_aux {C : TxCrypto} {MO : MapOrder} (w : World) (l : list op) (i : nat) (x : bytes) : bytes :=
  match l with [] => x | o :: r => last_aux (step w o) r i (new_aux w o i x) end.
(** A transaction without metadata is written with the hash of whatever metadata was last written with its body. *)
Theorem C33_exact : forall (C : TxCrypto) (MO : MapOrder) l, runtime_order -> hash_ok -> valid_run empty_world l -> Forall (metadata_all meta_ok) l ->
  let w := run empty_world l in forall t, Metadata (load w t) = None -> tx_ok (load w t) ->
  let body := Body (load w t) in
  AuxHash body = last_aux empty_world l (o_body (obj w t)) [] /\
  snd (run_bytes w t) = Ok (cbor (tx_item (body_item (map in_pair (Inputs body)) (map out_item (Outputs body)) (Fee body) (TTL body)
    (last_aux empty_world l (o_body (obj w t)) [])) (map wit_pair (Witness (load w t))) (Valid (load w t)) null_item)).
Proof.
  intros C MO l RO HO V F w t E K body.
  assert (G : forall l w i, Inv w -> metas meta_ok w -> valid_run w l -> Forall (metadata_all meta_ok) l -> AuxHash (body_of (run w l) i) = last_aux w l i (AuxHash (body_of w i))).
  { clear - RO. induction l as [| o l IH]; intros w i I M V F; cbn [run fold_left valid_run last_aux] in *; [reflexivity |].
    destruct V as [V1 V]. inversion F as [| ? ? F1 F2]; subst. unfold run in *.
    rewrite IH by (auto using inv_step, (metas_step meta_ok w o Logic.I)). rewrite (aux_step w o i RO I M V1). reflexivity. }
  specialize (G l empty_world (o_body (obj w t)) inv_empty (Forall_nil _) V F). fold w in G.
  assert (Z : body_of empty_world (o_body (obj w t)) = NewTxBody) by (unfold body_of; cbn; destruct (o_body (obj w t)); reflexivity). rewrite Z in G. cbn [AuxHash NewTxBody] in G.
  assert (B : AuxHash body = last_aux empty_world l (o_body (obj w t)) []) by (unfold body; rewrite load_body; exact G).
  split; [exact B |]. destruct (tx_bytes_spec (w_clock w) (load w t) RO HO K) as [S _]. unfold run_bytes. rewrite S. cbn [snd].
  unfold aux_body. rewrite E. cbn [ordered option_map]. unfold the_tx, the_body. cbn [Body Witness Valid with_body the_meta]. fold body. rewrite B. reflexivity.
Qed.
Print Assumptions C33_exact.
(** So it is free of a hash if no serialisation of its body found metadata, in particular if none was ever assigned. *)
Theorem C33_never : forall (C : TxCrypto) (MO : MapOrder) l i, valid_run empty_world l -> Forall (metadata_all (fun m => m = None)) l -> last_aux empty_world l i [] = [].
Proof.
  intros C MO l i V F.
  assert (G : forall l w x, metas (fun m => m = None) w -> Forall (metadata_all (fun m => m = None)) l -> last_aux w l i x = x).
  { clear. induction l as [| o l IH]; intros w x M F; cbn [last_aux]; [reflexivity |]. inversion F as [| ? ? F1 F2]; subst.
    rewrite IH by (auto; apply metas_step; auto). assert (N : forall t, Metadata (load w t) = None) by (intros t; apply (metas_obj (fun m => m = None) w t eq_refl M)).
    destruct o; cbn [new_aux]; rewrite ?N; auto; destruct (Nat.eqb _ _); auto. }
  apply G; [apply Forall_nil | exact F].
Qed.
Print Assumptions C33_never.
(** Assigning metadata, writing the transaction and clearing the metadata leaves the hash of what was written: in every history. *)
Theorem C33_history_refuted : forall (C : TxCrypto) (MO : MapOrder) l t m, hash_ok -> (t < ntxs (run empty_world l))%nat ->
  let w := run empty_world l in let i := o_body (obj w t) in
  last_aux empty_world (l ++ [OSetMetadata t (Some m); OBytes t; OSetMetadata t None]) i [] = blake2b256 (cbor (md_item (map_order (w_clock w) m))) /\
  last_aux empty_world (l ++ [OSetMetadata t (Some m); OBytes t; OSetMetadata t None]) i [] <> [] /\
  Metadata (load (run empty_world (l ++ [OSetMetadata t (Some m); OBytes t; OSetMetadata t None])) t) = None.
Proof.
  intros C MO l t m HO L w i.
  assert (A : forall r w0 x, last_aux w0 (l ++ r) i x = last_aux (run w0 l) r i (last_aux w0 l i x)).
  { clearbody i. clear. induction l as [| o l IH]; intros; cbn [app last_aux run fold_left]; auto. apply IH. }
  assert (O1 : obj (set_metadata w t (Some m)) t = {| o_body := i; o_wit := o_wit (obj w t); o_valid := o_valid (obj w t); o_meta := Some m |}).
  { unfold set_metadata, obj at 1. cbn. rewrite nth_upd_same by exact L. reflexivity. }
  assert (Q : last_aux empty_world (l ++ [OSetMetadata t (Some m); OBytes t; OSetMetadata t None]) i [] = blake2b256 (cbor (md_item (map_order (w_clock w) m)))).
  { rewrite A. fold w. cbn [last_aux step new_aux]. rewrite O1. cbn [o_body]. rewrite Nat.eqb_refl. unfold load. cbn [Metadata]. rewrite O1. cbn [o_meta]. reflexivity. }
  split; [exact Q |]. split.
  - rewrite Q. intros N. pose proof (proj2 (HO (cbor (md_item (map_order (w_clock w) m))))) as R. rewrite N in R. discriminate R.
  - unfold run. rewrite fold_left_app. fold (run empty_world l). fold w. cbn [fold_left step]. rewrite run_bytes_eq. unfold load, set_metadata, obj. cbn. rewrite nth_upd_same by (rewrite upd_length; exact L). reflexivity.
Qed.
Print Assumptions C33_history_refuted.
Section Ex33.
#[local] Existing Instance ex_crypto.
#[local] Existing Instance id_order.
Definition ex_cleared : list op :=
  ex_history ex_keys 5000000 1000000 ++ [OSetMetadata 0 (Some ex_meta); OBytes 0; OSetMetadata 0 None].
Example C33_exact_example : valid_run empty_world ex_cleared /\ Forall (metadata_all meta_ok) ex_cleared /\ Metadata (load (run empty_world ex_cleared) 0) = None /\
  last_aux empty_world ex_cleared 0 [] = blake2b256 (cbor (md_item ex_meta)) /\
  last_aux empty_world (ex_history ex_keys 5000000 1000000) 0 [] = [].
Proof.
  split; [| split; [| vm_compute; auto]].
  - unfold ex_cleared. cbn [valid_run ex_history app]. split; [exact Logic.I |]. split; [cbn; lia |].
    repeat (split; [cbv [step make_keys new_tx_builder]; cbn; lia |]). repeat (split; [vm_compute; lia |]). exact Logic.I.
  - unfold ex_cleared, ex_history. repeat (apply Forall_cons; [try exact Logic.I |]); [apply (proj2 (proj2 ex_tx_ok)) | apply Forall_nil].
Qed.
End Ex33.

(** ** C27 *)
(** For all amounts, also such that the sums do not fit into 64 bits: the outputs and the fee differ from the inputs by the multiple
    of 2^64 that the subtraction drops, so value is conserved exactly when the difference is a uint64. *)
Theorem C27_exact : forall (C : TxCrypto) (MO : MapOrder) w b a, reachable w -> (b < nbuilders w)%nat ->
  let old := Body (builder_tx w b) in let new := Body (builder_tx (add_change_if_needed w b a) b) in
  let left := sum_in old - sum_out old - Fee new in
  sum_in new - (sum_out new + Fee new) = 2 ^ 64 * (left / 2 ^ 64) /\
  (sum_in new = sum_out new + Fee new <-> 0 <= left < 2 ^ 64).
Proof.
  intros C MO w b a R Hb old new left. pose proof (add_change_tx w b a (reachable_inv w R) Hb) as E.
  assert (Q : sum_in new = sum_in old /\ sum_out new = sum_out old + left mod 2 ^ 64).
  { unfold left, new. rewrite E. cbn [Body]. fold old. unfold add_change. rewrite sum_out_app. cbn [map fold_right OutAmount].
    change (sum_in (add_outputs (set_fee old (mf w b)) _)) with (sum_in old). change (sum_out (set_fee old (mf w b))) with (sum_out old).
    change (Fee (add_outputs _ _)) with (mf w b) in *. rewrite change_amount_sum. change (sum_in (set_fee _ _)) with (sum_in old).
    change (sum_out (set_fee _ _)) with (sum_out old). change (Fee (set_fee _ _)) with (mf w b). unfold u64. split; [reflexivity | lia]. }
  destruct Q as [Q1 Q2]. rewrite Q1, Q2. assert (D : sum_in old = sum_out old + Fee new + left) by (unfold left; lia). rewrite D. clear - D.
  generalize (sum_out old) (Fee new). intros o f. pose proof (Z.div_mod left (2 ^ 64) ltac:(lia)) as M. pose proof (Z.mod_pos_bound left (2 ^ 64) ltac:(lia)) as P. split; [lia |].
  split; intros H; [lia |]. rewrite Z.mod_small by lia. lia.
Qed.
Print Assumptions C27_exact.
(** Otherwise the change wraps around: the outputs exceed the inputs by 2^64 lovelace. *)
Theorem C27_refuted : forall (C : TxCrypto) (MO : MapOrder) w b a, reachable w -> (b < nbuilders w)%nat ->
  let old := Body (builder_tx w b) in let new := Body (builder_tx (add_change_if_needed w b a) b) in
  0 <= sum_in old < sum_out old + Fee new -> sum_out old + Fee new - sum_in old <= 2 ^ 64 ->
  sum_out new + Fee new = sum_in new + 2 ^ 64.
Proof.
  intros C MO w b a R Hb old new HI HO. pose proof (add_change_tx w b a (reachable_inv w R) Hb) as E.
  unfold new in *. rewrite E in *. cbn [Body] in *. fold old in E |- *. unfold add_change in *. rewrite sum_out_app. cbn [map fold_right OutAmount].
  change (sum_in (add_outputs (set_fee old (mf w b)) _)) with (sum_in old). change (sum_out (set_fee old (mf w b))) with (sum_out old).
  change (Fee (add_outputs _ _)) with (mf w b) in *. rewrite change_amount_sum. change (sum_in (set_fee _ _)) with (sum_in old).
  change (sum_out (set_fee _ _)) with (sum_out old). change (Fee (set_fee _ _)) with (mf w b). unfold u64.
  replace ((sum_in old - sum_out old - mf w b) mod 2 ^ 64) with (sum_in old - sum_out old - mf w b + 2 ^ 64); [lia |].
  apply Z.mod_unique with (-1); lia.
Qed.
Print Assumptions C27_refuted.
Section Ex27.
#[local] Existing Instance ex_crypto.
#[local] Existing Instance id_order.
Example C27_example : let w := run empty_world (firstn 6 (ex_history ex_keys 5000000 1000000)) in
  let new := Body (builder_tx (add_change_if_needed w 0 ex_addr) 0) in sum_out (Body (builder_tx w 0)) + Fee new <= sum_in (Body (builder_tx w 0)) < 2 ^ 64 /\ sum_in new = sum_out new + Fee new.
Proof. vm_compute. intuition congruence. Qed.
Example C27_refuted_example : let w := run empty_world (firstn 6 (ex_history ex_keys 1000000 1000000)) in
  let new := Body (builder_tx (add_change_if_needed w 0 ex_addr) 0) in sum_out new = 2 ^ 64 - Fee new + 1000000.
Proof. vm_compute. reflexivity. Qed.
End Ex27.

(** ** C28 *)
Theorem C28_partial : forall (C : TxCrypto) (MO : MapOrder) w b a, reachable w -> (b < nbuilders w)%nat ->
  let old := builder_tx w b in let new := builder_tx (add_change_if_needed w b a) b in
  Fee (Body new) = snd (run_min_fee w b) /\ Inputs (Body new) = Inputs (Body old) /\ TTL (Body new) = TTL (Body old) /\ AuxHash (Body new) = AuxHash (Body old) /\
  Metadata new = Metadata old /\ Valid new = Valid old /\
  exists c, Outputs (Body new) = Outputs (Body old) ++ [{| OutAddress := a; OutAmount := c |}].
Proof.
  intros C MO w b a R Hb old new. unfold new. rewrite (add_change_tx w b a (reachable_inv w R) Hb). rewrite run_min_fee_eq. cbn. repeat split; eauto.
Qed.
Print Assumptions C28_partial.
(** False: the output is added even when nothing is left, with amount zero. *)
Theorem C28_zero_refuted : forall (C : TxCrypto) (MO : MapOrder) w b a, reachable w -> (b < nbuilders w)%nat ->
  let old := Body (builder_tx w b) in let new := Body (builder_tx (add_change_if_needed w b a) b) in
  sum_in old = sum_out old + Fee new -> Outputs new = Outputs old ++ [{| OutAddress := a; OutAmount := 0 |}].
Proof.
  intros C MO w b a R Hb old new H. unfold new in *. rewrite (add_change_tx w b a (reachable_inv w R) Hb) in *. cbn [Body] in *. fold old in H |- *.
  unfold add_change in *. cbn [Outputs add_outputs set_fee]. rewrite change_amount_sum. change (Fee (add_outputs _ _)) with (mf w b) in H.
  change (sum_in (set_fee _ _)) with (sum_in old). change (sum_out (set_fee _ _)) with (sum_out old). change (Fee (set_fee _ _)) with (mf w b).
  replace (sum_in old - sum_out old - mf w b) with 0 by lia. reflexivity.
Qed.
Print Assumptions C28_zero_refuted.
Section Ex28.
#[local] Existing Instance ex_crypto.
#[local] Existing Instance id_order.
(** Inputs exceeding the output by exactly the fee. *)
Example C28_example : let w := run empty_world (firstn 6 (ex_history ex_keys 1166997 1000000)) in
  let new := Body (builder_tx (add_change_if_needed w 0 ex_addr) 0) in sum_in (Body (builder_tx w 0)) = sum_out (Body (builder_tx w 0)) + Fee new.
Proof. vm_compute. reflexivity. Qed.
End Ex28.

(** ** C29 *)
Theorem C29_partial : forall (C : TxCrypto) (MO : MapOrder) w b, reachable w -> (b < nbuilders w)%nat ->
  let old := builder_tx w b in let new := builder_tx (fst (run_min_fee w b)) b in
  Body new = Body old /\ Metadata new = Metadata old /\ Valid new = Valid old /\ (Witness old <> [] -> new = old).
Proof.
  intros C MO w b R Hb old new. unfold new. rewrite (min_fee_tx w b (reachable_inv w R) Hb). rewrite mf_wit_eq. fold old. do 3 (split; [reflexivity |]).
  clear new. clearbody old. intros N. unfold fee_wit. destruct old as [bd ws v m]. cbn in *. destruct ws; [destruct N |]; reflexivity.
Qed.
Print Assumptions C29_partial.
(** False for every builder whose transaction has no witness yet: a witness of zeros is left behind. *)
Theorem C29_refuted : forall (C : TxCrypto) (MO : MapOrder) w b n n', runtime_order -> hash_ok -> reachable w -> (b < nbuilders w)%nat ->
  let old := builder_tx w b in let new := builder_tx (fst (run_min_fee w b)) b in
  tx_ok old -> Witness old = [] ->
  Witness new = [{| VKey := repeat 0 32; Signature := repeat 0 64 |}] /\
  exists s s', snd (tx_bytes n old) = Ok s /\ snd (tx_bytes n' new) = Ok s' /\ s <> s'.
Proof.
  intros C MO w b n n' RO HO R Hb old new K W. unfold new. rewrite (min_fee_tx w b (reachable_inv w R) Hb), mf_wit_eq. fold old.
  assert (EW : fee_wit old = [placeholder_witness]) by (unfold fee_wit; rewrite W; reflexivity). rewrite EW. split; [reflexivity |].
  set (t' := with_witness old [placeholder_witness]).
  assert (K' : tx_ok t') by (destruct K as (K1 & K2 & K3); split; [exact K1 |]; split; [| exact K3]; cbn; rewrite <- EW; apply fee_wit_ok; exact K2).
  destruct (tx_bytes_spec n old RO HO K) as [E I]. destruct (tx_bytes_spec n' t' RO HO K') as [E' I']. do 2 eexists. split; [rewrite E; reflexivity |].
  split; [rewrite E'; reflexivity |]. intros Q. apply cbor_inj in Q; auto. unfold the_tx in Q. apply tx_item_inj in Q as (_ & Q & _). cbn [Witness with_body] in Q. rewrite W in Q. discriminate Q.
Qed.
Print Assumptions C29_refuted.
Section Ex29.
#[local] Existing Instance ex_crypto.
#[local] Existing Instance id_order.
Example C29_example : let w := run empty_world (firstn 5 (ex_history ex_keys 5000000 1000000)) in Witness (builder_tx w 0) = [].
Proof. reflexivity. Qed.
End Ex29.

(** ** C26 *)
(** Holds for as many keys as MinFee counted, when the change address and amount take no more room than the
    placeholder and the fee field keeps its width. *)
Theorem C26_partial : forall (C : TxCrypto) (MO : MapOrder) w b a w2 t2 n s, runtime_order -> hash_ok -> key_sizes -> reachable w -> (b < nbuilders w)%nat ->
  let t := builder_tx w b in let l := b_fees (bld w b) in let T := load w2 t2 in
  tx_ok t -> zlen (Outputs (Body t)) + 1 < 2 ^ 64 -> (forall c, 0 <= c < 2 ^ 64 -> out_ok {| OutAddress := a; OutAmount := c |}) ->
  build (add_change_if_needed w b a) b = (w2, Ok t2) -> snd (tx_bytes n T) = Ok s ->
  (* one key, or as many as the transaction has witnesses from an earlier Build *)
  (forall x, In x (Witness t) -> length (VKey x) = 32%nat /\ length (Signature x) = 64%nat) ->
  zlen (builder_keys w b) = Z.max 1 (zlen (Witness t)) -> zlen (builder_keys w b) < 2 ^ 64 ->
  (Metadata t = None -> AuxHash (Body t) = []) ->
  sum_in (Body t) < 2 ^ 64 -> 0 <= sum_out (Body t) -> sum_out (Body t) + Fee (Body T) <= sum_in (Body t) -> sum_in (Body t) <> sum_out (Body t) ->
  zlen (cbor (addr_item a)) <= 59 ->
  uint_size (sum_in (Body t) - sum_out (Body t) - Fee (Body T)) <= uint_size ((sum_in (Body t) - sum_out (Body t) - 200000) mod 2 ^ 64) ->
  2 ^ 16 <= TxFeeFixed l -> 0 <= TxFeePerByte l -> TxFeeFixed l + TxFeePerByte l * (zlen s + 200) < 2 ^ 32 ->
  TxFeeFixed l + TxFeePerByte l * zlen s <= Fee (Body T).
Proof.
  intros C MO w b a w2 t2 n s RO HO KS R Hb t l T K L Ha E Es WS NK LK HA HI HSO HC NE AL US F1 F2 F3.
  destruct (change_then_build w b a w2 t2 RO HO KS (reachable_inv w R) Hb K L LK Ha E) as (c & Ec & E1 & E2 & E3 & E4 & E5 & E6 & W1 & W2 & KT).
  cbv zeta in *. fold t l T in Ec, E1, E2, E3, E4, E5, E6, W1, W2, KT.
  destruct (tx_bytes_size n T RO HO KT) as (s' & Es' & Sz). rewrite Es in Es'. apply Ok_inj in Es'. subst s'.
  set (f1 := fee_for l t (Fee (Body t))) in *. set (fee := fee_for l t f1) in *. rewrite E5 in *.
  assert (Hc : c = sum_in (Body t) - sum_out (Body t) - fee) by (rewrite Ec; apply Z.mod_small; pose proof (u64_range (TxFeeFixed l + TxFeePerByte l * tx_size (fee_tx t f1))) as Q; change (0 <= fee < 2 ^ 64) in Q; lia).
  assert (Hc0 : 0 <= c) by lia.
  assert (NT : (total_inputs (Body t) =? total_outputs (Body t)) = false).
  { apply Z.eqb_neq. rewrite total_inputs_sum, total_outputs_sum. unfold u64. pose proof (u64_range (TxFeeFixed l + TxFeePerByte l * tx_size (fee_tx t f1))) as Q. change (0 <= fee < 2 ^ 64) in Q.
    rewrite !Z.mod_small by lia. exact NE. }
  assert (D : forall x, tx_size T - tx_size (fee_tx t x) = zlen (cbor (addr_item a)) - 59 + (uint_size c - uint_size (placeholder_amount (Body t))) + (uint_size fee - uint_size x)).
  { intros x. rewrite (size_diff t T x c a Hc0 E1 E2 E3 E4 E6), NT, E5.
    destruct (fee_wit_std t WS) as (V1 & V2 & V3). assert (WN : Witness T <> []).
    { intros Q. rewrite Q in W2. unfold zlen in NK. rewrite <- W2 in NK. cbn in NK. lia. }
    rewrite (wit_size_std (Witness T) W1 WN), (wit_size_std (fee_wit t) V1 V2), V3. unfold zlen at 2 3. rewrite W2. change (Z.of_nat (length (builder_keys w b))) with (zlen (builder_keys w b)). rewrite NK.
    assert (M0 : match Metadata t with Some _ => 0 | None => aux_size (AuxHash (Body t)) end = 0) by (destruct (Metadata t); [| rewrite HA by auto]; reflexivity).
    lia. }
  assert (Eph : placeholder_amount (Body t) = (sum_in (Body t) - sum_out (Body t) - 200000) mod 2 ^ 64) by apply placeholder_amount_sum.
  rewrite <- Eph, <- Hc in US.
  pose proof (uint_size_range fee) as R1. pose proof (uint_size_range f1) as R2. pose proof (uint_size_range (Fee (Body t))) as R3.
  pose proof (uint_size_range c) as R4. pose proof (uint_size_range (placeholder_amount (Body t))) as R5.
  assert (A1 : 0 <= zlen (cbor (addr_item a))) by (unfold zlen; lia).
  pose proof (D (Fee (Body t))) as D1. pose proof (D f1) as D2. rewrite <- Sz in *.
  assert (S0 : forall x, 0 <= tx_size (fee_tx t x)).
  { intros x. apply fee_tx_size_pos. }
  assert (B1 : tx_size (fee_tx t (Fee (Body t))) <= zlen s + 200) by lia.
  assert (B2 : tx_size (fee_tx t f1) <= zlen s + 200) by lia.
  assert (P : forall x, tx_size (fee_tx t x) <= zlen s + 200 -> 0 <= TxFeePerByte l * tx_size (fee_tx t x) <= TxFeePerByte l * (zlen s + 200))
    by (intros x Q; specialize (S0 x); split; [apply Z.mul_nonneg_nonneg | apply Z.mul_le_mono_nonneg_l]; lia).
  pose proof (P _ B1) as P1. pose proof (P _ B2) as P2.
  assert (G1 : f1 = TxFeeFixed l + TxFeePerByte l * tx_size (fee_tx t (Fee (Body t)))) by (unfold f1, fee_for; apply Z.mod_small; lia).
  assert (G2 : fee = TxFeeFixed l + TxFeePerByte l * tx_size (fee_tx t f1)) by (unfold fee, fee_for; apply Z.mod_small; lia).
  assert (U : forall x, 2 ^ 16 <= x < 2 ^ 32 -> uint_size x = 5)
    by (clear; intros x Hx; unfold uint_size; repeat match goal with |- context [?x <? ?y] => destruct (Z.ltb_spec x y) end; lia).
  rewrite (U f1), (U fee) in D2 by lia. rewrite G2. assert (Q : zlen s <= tx_size (fee_tx t f1)) by lia.
  pose proof (Z.mul_le_mono_nonneg_l _ _ (TxFeePerByte l) F2 Q). lia.
Qed.
Print Assumptions C26_partial.

Lemma wit_grow ws ws' : wit_std ws -> wit_std ws' -> ws <> [] -> zlen ws < zlen ws' -> 101 + wit_size ws <= wit_size ws'.
Proof.
  intros H H' N L. assert (N' : ws' <> []) by (intros ->; unfold zlen in L; cbn in L; lia).
  rewrite (wit_size_std ws H N), (wit_size_std ws' H' N'). pose proof (uint_size_mono (zlen ws) (zlen ws') ltac:(lia)). lia.
Qed.
(** Exactly how far off the fee is, for any number of keys, any change address and amount: by the fee per byte times the
    bytes that the built transaction has more than the one MinFee measured. *)
Definition witnesses_size (k : Z) : Z := if k =? 0 then 1 else 2 + uint_size k + 101 * k.
Definition excess (t : Tx) (a : Address) (change keys : Z) : Z :=
  let b := Body t in let n := zlen (Outputs b) in
  (if sum_in b =? sum_out b then uint_size (n + 1) - uint_size n + 1 + zlen (cbor (addr_item a)) + uint_size change
   else zlen (cbor (addr_item a)) - 59 + uint_size change - uint_size ((sum_in b - sum_out b - 200000) mod 2 ^ 64))
  + witnesses_size keys - witnesses_size (Z.max 1 (zlen (Witness t))).
Theorem C26_exact : forall (C : TxCrypto) (MO : MapOrder) w b a w2 t2 n s, runtime_order -> hash_ok -> key_sizes -> reachable w -> (b < nbuilders w)%nat ->
  let t := builder_tx w b in let l := b_fees (bld w b) in let T := load w2 t2 in
  tx_ok t -> zlen (Outputs (Body t)) + 1 < 2 ^ 64 -> (forall c, 0 <= c < 2 ^ 64 -> out_ok {| OutAddress := a; OutAmount := c |}) ->
  build (add_change_if_needed w b a) b = (w2, Ok t2) -> snd (tx_bytes n T) = Ok s ->
  (forall x, In x (Witness t) -> length (VKey x) = 32%nat /\ length (Signature x) = 64%nat) ->
  zlen (builder_keys w b) < 2 ^ 64 -> (Metadata t = None -> AuxHash (Body t) = []) ->
  0 <= sum_in (Body t) < 2 ^ 64 -> 0 <= sum_out (Body t) < 2 ^ 64 ->
  2 ^ 16 <= TxFeeFixed l -> 0 <= TxFeePerByte l -> TxFeeFixed l + TxFeePerByte l * (zlen s + 101 * zlen (Witness t) + 300) < 2 ^ 32 ->
  let change := (sum_in (Body t) - sum_out (Body t) - Fee (Body T)) mod 2 ^ 64 in
  TxFeeFixed l + TxFeePerByte l * zlen s = Fee (Body T) + TxFeePerByte l * excess t a change (zlen (builder_keys w b)) /\
  (TxFeeFixed l + TxFeePerByte l * zlen s <= Fee (Body T) <-> TxFeePerByte l = 0 \/ excess t a change (zlen (builder_keys w b)) <= 0).
Proof.
  intros C MO w b a w2 t2 n s RO HO KS R Hb t l T K L Ha E Es WS LK HA HI HSO F1 F2 F3 change.
  destruct (change_then_build w b a w2 t2 RO HO KS (reachable_inv w R) Hb K L LK Ha E) as (c & Ec & E1 & E2 & E3 & E4 & E5 & E6 & W1 & W2 & KT).
  cbv zeta in *. fold t l T in Ec, E1, E2, E3, E4, E5, E6, W1, W2, KT.
  destruct (tx_bytes_size n T RO HO KT) as (s' & Es' & Sz). rewrite Es in Es'. apply Ok_inj in Es'. subst s'.
  set (f1 := fee_for l t (Fee (Body t))) in *. set (fee := fee_for l t f1) in *.
  assert (Hc : change = c) by (unfold change; rewrite Ec, E5; reflexivity). clearbody change. subst change. rewrite E5 in *.
  assert (Hc0 : 0 <= c) by (rewrite Ec; apply u64_range).
  assert (NT : (total_inputs (Body t) =? total_outputs (Body t)) = (sum_in (Body t) =? sum_out (Body t))).
  { rewrite total_inputs_sum, total_outputs_sum. unfold u64. rewrite !Z.mod_small by lia. reflexivity. }
  destruct (fee_wit_std t WS) as (V1 & V2 & V3).
  assert (WT : wit_size (Witness T) = witnesses_size (zlen (builder_keys w b))).
  { replace (zlen (builder_keys w b)) with (zlen (Witness T)) by (unfold zlen; rewrite W2; reflexivity). revert W1. destruct (Witness T) as [| x r]; intros W1; [reflexivity |].
    rewrite wit_size_std by (exact W1 || discriminate). unfold witnesses_size. destruct (Z.eqb_spec (zlen (x :: r)) 0) as [Q | _]; [unfold zlen in Q; cbn [length] in Q; lia | reflexivity]. }
  assert (WF : wit_size (fee_wit t) = witnesses_size (Z.max 1 (zlen (Witness t)))).
  { rewrite (wit_size_std _ V1 V2), V3. unfold witnesses_size. replace (Z.max 1 (zlen (Witness t)) =? 0) with false by lia. reflexivity. }
  assert (M0 : match Metadata t with Some _ => 0 | None => aux_size (AuxHash (Body t)) end = 0) by (destruct (Metadata t); [| rewrite HA by auto]; reflexivity).
  assert (D : forall x, tx_size T - tx_size (fee_tx t x) = excess t a c (zlen (builder_keys w b)) + (uint_size fee - uint_size x)).
  { intros x. rewrite (size_diff t T x c a Hc0 E1 E2 E3 E4 E6), NT, E5, WT, WF, M0. unfold excess. rewrite placeholder_amount_sum. unfold u64.
    destruct (sum_in (Body t) =? sum_out (Body t)); lia. }
  pose proof (uint_size_range fee) as R1. pose proof (uint_size_range f1) as R2. pose proof (uint_size_range (Fee (Body t))) as R3.
  pose proof (uint_size_range c) as R4. pose proof (uint_size_range ((sum_in (Body t) - sum_out (Body t) - 200000) mod 2 ^ 64)) as R5.
  assert (A1 : 0 <= zlen (cbor (addr_item a))) by (unfold zlen; lia).
  assert (WZ : 0 <= zlen (Witness t)) by (unfold zlen; lia).
  assert (X1 : - (101 * zlen (Witness t) + 200) <= excess t a c (zlen (builder_keys w b))).
  { unfold excess. pose proof (uint_size_mono (zlen (Outputs (Body t))) (zlen (Outputs (Body t)) + 1) ltac:(lia)) as R6.
    assert (P1 : 1 <= witnesses_size (zlen (builder_keys w b))).
    { unfold witnesses_size. pose proof (uint_size_range (zlen (builder_keys w b))). pose proof (zlen_nonneg (builder_keys w b)). destruct (zlen (builder_keys w b) =? 0); lia. }
    assert (P2 : witnesses_size (Z.max 1 (zlen (Witness t))) <= 11 + 101 * (1 + zlen (Witness t))) by (unfold witnesses_size; pose proof (uint_size_range (Z.max 1 (zlen (Witness t)))); destruct (Z.max 1 (zlen (Witness t)) =? 0); lia).
    destruct (sum_in (Body t) =? sum_out (Body t)); lia. }
  pose proof (D (Fee (Body t))) as D1. pose proof (D f1) as D2. rewrite <- Sz in *.
  set (x := excess t a c (zlen (builder_keys w b))) in *. clearbody x.
  assert (S0 : forall x, 0 <= tx_size (fee_tx t x)) by (intros y; apply fee_tx_size_pos).
  assert (P : forall y, tx_size (fee_tx t y) <= zlen s + 101 * zlen (Witness t) + 300 ->
    0 <= TxFeePerByte l * tx_size (fee_tx t y) <= TxFeePerByte l * (zlen s + 101 * zlen (Witness t) + 300))
    by (intros y Q; specialize (S0 y); split; [apply Z.mul_nonneg_nonneg | apply Z.mul_le_mono_nonneg_l]; lia).
  pose proof (P (Fee (Body t)) ltac:(lia)) as P1. pose proof (P f1 ltac:(lia)) as P2.
  assert (G1 : f1 = TxFeeFixed l + TxFeePerByte l * tx_size (fee_tx t (Fee (Body t)))) by (unfold f1, fee_for; apply Z.mod_small; lia).
  assert (G2 : fee = TxFeeFixed l + TxFeePerByte l * tx_size (fee_tx t f1)) by (unfold fee, fee_for; apply Z.mod_small; lia).
  assert (U : forall x, 2 ^ 16 <= x < 2 ^ 32 -> uint_size x = 5)
    by (clear; intros x Hx; unfold uint_size; repeat match goal with |- context [?x <? ?y] => destruct (Z.ltb_spec x y) end; lia).
  rewrite (U f1), (U fee) in D2 by lia. replace (zlen s) with (tx_size (fee_tx t f1) + x) by lia.
  assert (EQ : TxFeeFixed l + TxFeePerByte l * (tx_size (fee_tx t f1) + x) = fee + TxFeePerByte l * x) by (rewrite G2; ring).
  split; [exact EQ |]. rewrite EQ. clear - F2. split; [| nia]. intros Q.
  destruct (Z.eq_dec (TxFeePerByte l) 0) as [-> | N]; [left; reflexivity | right; nia].
Qed.
Print Assumptions C26_exact.

(** False whenever there are more keys than witnesses MinFee counted, in particular for every transaction
    with two or more keys: the fee is always too low. *)
Theorem C26_keys_refuted : forall (C : TxCrypto) (MO : MapOrder) w b a w2 t2 n s, runtime_order -> hash_ok -> key_sizes -> reachable w -> (b < nbuilders w)%nat ->
  let t := builder_tx w b in let l := b_fees (bld w b) in let T := load w2 t2 in
  tx_ok t -> zlen (Outputs (Body t)) + 1 < 2 ^ 64 -> (forall c, 0 <= c < 2 ^ 64 -> out_ok {| OutAddress := a; OutAmount := c |}) ->
  build (add_change_if_needed w b a) b = (w2, Ok t2) -> snd (tx_bytes n T) = Ok s ->
  (forall x, In x (Witness t) -> length (VKey x) = 32%nat /\ length (Signature x) = 64%nat) ->
  zlen (builder_keys w b) < 2 ^ 64 -> Z.max 1 (zlen (Witness t)) < zlen (builder_keys w b) -> 0 < TxFeePerByte l -> 0 <= TxFeeFixed l ->
  Fee (Body T) < TxFeeFixed l + TxFeePerByte l * zlen s.
Proof.
  intros C MO w b a w2 t2 n s RO HO KS R Hb t l T K L Ha E Es WS LK NK F1 F2.
  destruct (change_then_build w b a w2 t2 RO HO KS (reachable_inv w R) Hb K L LK Ha E) as (c & Ec & E1 & E2 & E3 & E4 & E5 & E6 & W1 & W2 & KT).
  cbv zeta in *. fold t l T in Ec, E1, E2, E3, E4, E5, E6, W1, W2, KT.
  destruct (tx_bytes_size n T RO HO KT) as (s' & Es' & Sz). rewrite Es in Es'. apply Ok_inj in Es'. subst s'.
  set (f1 := fee_for l t (Fee (Body t))) in *. set (fee := fee_for l t f1) in *. rewrite E5 in *.
  assert (Hc0 : 0 <= c) by (rewrite Ec; apply u64_range).
  destruct (fee_wit_std t WS) as (V1 & V2 & V3).
  assert (WG : 101 + wit_size (fee_wit t) <= wit_size (Witness T)).
  { apply wit_grow; auto. rewrite V3. unfold zlen in *. rewrite W2. exact NK. }
  pose proof (size_diff t T f1 c a Hc0 E1 E2 E3 E4 E6) as D. rewrite E5 in D.
  assert (A1 : 0 <= zlen (cbor (addr_item a))) by (unfold zlen; lia).
  pose proof (uint_size_range fee) as R1. pose proof (uint_size_range f1) as R2. pose proof (uint_size_range c) as R4. pose proof (uint_size_range (placeholder_amount (Body t))) as R5.
  pose proof (uint_size_mono (zlen (Outputs (Body t))) (zlen (Outputs (Body t)) + 1) ltac:(lia)) as R6.
  assert (M0 : 0 <= match Metadata t with Some _ => 0 | None => aux_size (AuxHash (Body t)) end).
  { destruct (Metadata t); [lia |]. unfold aux_size. destruct (AuxHash (Body t)) as [| z r]; [lia |]. pose proof (uint_size_range (zlen (z :: r))). unfold zlen in *. lia. }
  assert (S1 : tx_size (fee_tx t f1) < zlen s) by (rewrite Sz; destruct (_ =? _) in D; lia).
  assert (S0 : 0 <= tx_size (fee_tx t f1)).
  { apply fee_tx_size_pos. }
  assert (G : fee <= TxFeeFixed l + TxFeePerByte l * tx_size (fee_tx t f1)) by (unfold fee, fee_for, u64; apply Z.mod_le; nia).
  nia.
Qed.
Print Assumptions C26_keys_refuted.
(** False whenever inputs equal outputs, with one key too: MinFee measures no change output at all, but one is added. *)
Theorem C26_equal_refuted : forall (C : TxCrypto) (MO : MapOrder) w b a w2 t2 n s, runtime_order -> hash_ok -> key_sizes -> reachable w -> (b < nbuilders w)%nat ->
  let t := builder_tx w b in let l := b_fees (bld w b) in let T := load w2 t2 in
  tx_ok t -> zlen (Outputs (Body t)) + 1 < 2 ^ 64 -> (forall c, 0 <= c < 2 ^ 64 -> out_ok {| OutAddress := a; OutAmount := c |}) ->
  build (add_change_if_needed w b a) b = (w2, Ok t2) -> snd (tx_bytes n T) = Ok s ->
  (forall x, In x (Witness t) -> length (VKey x) = 32%nat /\ length (Signature x) = 64%nat) ->
  zlen (builder_keys w b) < 2 ^ 64 -> Z.max 1 (zlen (Witness t)) <= zlen (builder_keys w b) -> 0 < TxFeePerByte l -> 0 <= TxFeeFixed l ->
  sum_in (Body t) = sum_out (Body t) -> 8 <= zlen (cbor (addr_item a)) -> Fee (Body T) < TxFeeFixed l + TxFeePerByte l * zlen s.
Proof.
  intros C MO w b a w2 t2 n s RO HO KS R Hb t l T K L Ha E Es WS LK NK F1 F2 EQ LA.
  destruct (change_then_build w b a w2 t2 RO HO KS (reachable_inv w R) Hb K L LK Ha E) as (c & Ec & E1 & E2 & E3 & E4 & E5 & E6 & W1 & W2 & KT).
  cbv zeta in *. fold t l T in Ec, E1, E2, E3, E4, E5, E6, W1, W2, KT.
  destruct (tx_bytes_size n T RO HO KT) as (s' & Es' & Sz). rewrite Es in Es'. apply Ok_inj in Es'. subst s'.
  set (f1 := fee_for l t (Fee (Body t))) in *. set (fee := fee_for l t f1) in *. rewrite E5 in *.
  assert (Hc0 : 0 <= c) by (rewrite Ec; apply u64_range).
  destruct (fee_wit_std t WS) as (V1 & V2 & V3).
  assert (WG : wit_size (fee_wit t) <= wit_size (Witness T)).
  { assert (LT : zlen (fee_wit t) <= zlen (Witness T)) by (rewrite V3; unfold zlen in *; rewrite W2; exact NK).
    destruct (Z.eq_dec (zlen (fee_wit t)) (zlen (Witness T))) as [Q | Q].
    - assert (N' : Witness T <> []) by (intros X; rewrite X in Q; destruct (fee_wit t); [contradiction | unfold zlen in Q; cbn in Q; lia]).
      rewrite (wit_size_std _ V1 V2), (wit_size_std _ W1 N'), Q. lia.
    - pose proof (wit_grow (fee_wit t) (Witness T) V1 W1 V2 ltac:(lia)). lia. }
  pose proof (size_diff t T f1 c a Hc0 E1 E2 E3 E4 E6) as D. rewrite E5 in D.
  assert (EI : (total_inputs (Body t) =? total_outputs (Body t)) = true) by (rewrite total_inputs_sum, total_outputs_sum, EQ; apply Z.eqb_refl). rewrite EI in D.
  pose proof (uint_size_range fee) as R1. pose proof (uint_size_range f1) as R2. pose proof (uint_size_range c) as R4.
  pose proof (uint_size_mono (zlen (Outputs (Body t))) (zlen (Outputs (Body t)) + 1) ltac:(lia)) as R6.
  assert (M0 : 0 <= match Metadata t with Some _ => 0 | None => aux_size (AuxHash (Body t)) end).
  { destruct (Metadata t); [lia |]. unfold aux_size. destruct (AuxHash (Body t)) as [| z r]; [lia |]. pose proof (uint_size_range (zlen (z :: r))). unfold zlen in *. lia. }
  assert (S1 : tx_size (fee_tx t f1) < zlen s) by (rewrite Sz; lia).
  assert (S0 : 0 <= tx_size (fee_tx t f1)).
  { apply fee_tx_size_pos. }
  assert (G : fee <= TxFeeFixed l + TxFeePerByte l * tx_size (fee_tx t f1)) by (unfold fee, fee_for, u64; apply Z.mod_le; nia).
  nia.
Qed.
Print Assumptions C26_equal_refuted.
(** False for one key as well: change that needs a wider amount field than the placeholder, ... *)
Section Ex26.
#[local] Existing Instance ex_crypto.
#[local] Existing Instance id_order.
Definition ex_edge : World := run empty_world (ex_history [repeat 7 96] (2 ^ 32 + 1000000 + 168000) 1000000).
Definition the {A} (d : A) (r : result A) : A := match r with Ok x => x | _ => d end.
Theorem C26_boundary_refuted : exists w b w2 t2 s, reachable w /\ build w b = (w2, Ok t2) /\ snd (tx_bytes 0 (load w2 t2)) = Ok s /\ length (builder_keys w b) = 1%nat /\
  Fee (Body (load w2 t2)) < TxFeeFixed (b_fees (bld w b)) + TxFeePerByte (b_fees (bld w b)) * zlen s /\
  (exists c, OutAmount (nth 1 (Outputs (Body (load w2 t2))) (ex_out TestNet 0)) = c /\ 2 ^ 32 <= c < 2 ^ 32 + 2000).
Proof.
  exists ex_edge, 0%nat, (fst (build ex_edge 0)), 1%nat, (the [] (snd (tx_bytes 0 (load (fst (build ex_edge 0)) 1)))).
  split; [apply ex_reachable |]. split; [vm_compute; reflexivity |]. split; [vm_compute; reflexivity |]. split; [vm_compute; reflexivity |]. split; [vm_compute; reflexivity |].
  eexists. split; [reflexivity |]. vm_compute. split; [discriminate | reflexivity].
Qed.
Print Assumptions C26_boundary_refuted.
(** Inputs equal to outputs: at least 40 bytes unpaid. *)
Definition ex_equal : World := run empty_world (ex_history [repeat 7 96] 1000000 1000000).
Example C26_equal_example : exists w b w2 t2 s, reachable w /\ build w b = (w2, Ok t2) /\ snd (tx_bytes 0 (load w2 t2)) = Ok s /\ length (builder_keys w b) = 1%nat /\
  Fee (Body (load w2 t2)) + 44 * 40 < TxFeeFixed (b_fees (bld w b)) + TxFeePerByte (b_fees (bld w b)) * zlen s.
Proof.
  exists ex_equal, 0%nat, (fst (build ex_equal 0)), 1%nat, (the [] (snd (tx_bytes 0 (load (fst (build ex_equal 0)) 1)))).
  split; [apply ex_reachable |]. split; [vm_compute; reflexivity |]. split; [vm_compute; reflexivity |]. split; [vm_compute; reflexivity |]. vm_compute; reflexivity.
Qed.
Example C26_equal_hypotheses : let w := run empty_world (firstn 6 (ex_history [repeat 7 96] 1000000 1000000)) in
  sum_in (Body (builder_tx w 0)) = sum_out (Body (builder_tx w 0)) /\ sum_in (Body (builder_tx w 0)) = 1000000 /\ 8 <= zlen (cbor (addr_item ex_addr)) /\ zlen (builder_keys w 0) = 1 /\ zlen (Witness (builder_tx w 0)) = 1 /\
  ex_equal = add_change_if_needed w 0 ex_addr.
Proof. split; [vm_compute; reflexivity |]. split; [vm_compute; reflexivity |]. split; [vm_compute; discriminate |]. split; [vm_compute; reflexivity |]. split; vm_compute; reflexivity. Qed.
(** One key in the ordinary case, and the sizes that [C26_partial] asks for. *)
Definition ex_plain : World := run empty_world (firstn 6 (ex_history [repeat 7 96] 5000000 1000000)).
Example C26_example : let w2 := fst (build (add_change_if_needed ex_plain 0 ex_addr) 0) in
  snd (build (add_change_if_needed ex_plain 0 ex_addr) 0) = Ok 1%nat /\ zlen (cbor (addr_item ex_addr)) <= 59 /\
  155381 + 44 * zlen (the [] (snd (tx_bytes 0 (load w2 1)))) <= Fee (Body (load w2 1)).
Proof. split; [vm_compute; reflexivity |]. split; [vm_compute; discriminate |]. vm_compute. discriminate. Qed.
(** Two keys: 101 bytes more than measured. *)
Definition ex_two_keys : World := run empty_world (firstn 6 (ex_history ex_keys 5000000 1000000)).
Example C26_exact_example : let w2 := fst (build (add_change_if_needed ex_two_keys 0 ex_addr) 0) in let T := load w2 1 in
  let s := the [] (snd (tx_bytes 0 T)) in
  excess (builder_tx ex_two_keys 0) ex_addr ((5000000 - 1000000 - Fee (Body T)) mod 2 ^ 64) 2 = 101 /\ 155381 + 44 * zlen s = Fee (Body T) + 44 * 101.
Proof. vm_compute. split; reflexivity. Qed.
End Ex26.

(** ** C35 *)
(** Transactions: an operation on one builder, or on a transaction it built, leaves the transactions of the
    others alone. *)
Theorem C35_transactions : forall (C : TxCrypto) (MO : MapOrder) w o b t, reachable w -> valid_op w o -> (b < nbuilders w)%nat -> (t < ntxs w)%nat ->
  (owner w o <> Some b -> builder_tx (step w o) b = builder_tx w b) /\
  (owner w o <> Some (o_body (obj w t)) -> load (step w o) t = load w t).
Proof.
  intros C MO w o b t R V Hb Ht. pose proof (reachable_inv w R) as I. split; [| intros N; apply load_isolated; auto]. intros N.
  destruct (inv_builders w I b Hb) as (K & EB & _). unfold builder_tx. rewrite bld_step; auto.
  - apply load_isolated; auto. rewrite EB. exact N.
  - intros k ->. apply N. reflexivity.
Qed.
Print Assumptions C35_transactions.
(** [owner] is the builder whose transaction the operation is about. *)
Theorem C35_owner : forall (C : TxCrypto) (MO : MapOrder) w b, reachable w -> (b < nbuilders w)%nat -> o_body (obj w (b_tx (bld w b))) = b /\
  forall w' t', build w b = (w', Ok t') -> o_body (obj w' t') = b.
Proof.
  intros C MO w b R Hb. pose proof (reachable_inv w R) as I. split; [apply (inv_builders w I b Hb) |]. intros w' t' E. destruct (build_loads w b w' t' I Hb E) as (h & ws & _ & _ & _ & _ & _ & _ & _ & _ & Q & _). exact Q.
Qed.
Print Assumptions C35_owner.
(** Keys: isolated when no two builders hold slices of the same array ... *)
Theorem C35_keys_partial : forall (C : TxCrypto) (MO : MapOrder) w o b, reachable w -> valid_op w o -> unshared w -> (b < nbuilders w)%nat ->
  (forall k, o <> OSign b k) -> builder_keys (step w o) b = builder_keys w b.
Proof.
  intros C MO w o b R V U Hb N. rewrite keys_step by (auto using reachable_inv). destruct o; cbn [signed]; try apply app_nil_r.
  destruct (Nat.eqb_spec b b0) as [-> | _]; [destruct (N key); auto | apply app_nil_r].
Qed.
Print Assumptions C35_keys_partial.
Theorem C35_unshared : forall (C : TxCrypto) (MO : MapOrder) w o, reachable w -> valid_op w o -> fresh_slice w o -> unshared w -> unshared (step w o).
Proof. intros C MO w o R V F U. apply unshared_step; auto using reachable_inv. Qed.
Print Assumptions C35_unshared.
(** ... and false otherwise: two builders made from one slice with spare capacity; the key added to the
    second replaces the one added to the first. *)
Definition shared_history (keys : list bytes) (spare : nat) (f : LinearFee) (k1 k2 : bytes) : list op :=
  let s := {| s_arr := 0; s_off := 0; s_len := length keys |} in
  [OMakeKeys keys (S spare); ONewBuilder f s; ONewBuilder f s; OSign 0 k1; OSign 1 k2].
Theorem C35_keys_refuted : forall (C : TxCrypto) (MO : MapOrder) keys spare f k1 k2,
  let l := shared_history keys spare f k1 k2 in
  valid_run empty_world l /\ builder_keys (run empty_world (firstn 4 l)) 0 = keys ++ [k1] /\ builder_keys (run empty_world l) 0 = keys ++ [k2].
Proof.
  intros C MO keys spare f k1 k2 l. subst l. unfold shared_history.
  set (s := {| s_arr := 0; s_off := 0; s_len := length keys |}). set (arr := keys ++ repeat [] (S spare)).
  assert (L : (length keys < length arr)%nat) by (unfold arr; rewrite app_length, repeat_length; lia).
  set (s' := {| s_arr := 0; s_off := 0; s_len := S (length keys) |}).
  set (o i := {| o_body := i; o_wit := i; o_valid := true; o_meta := None |}).
  set (W := fun a p q => {| w_txs := [o 0%nat; o 1%nat]; w_bodies := [NewTxBody; NewTxBody]; w_wits := [[]; []]; w_arrays := [a];
      w_builders := [{| b_tx := 0; b_keys := p; b_fees := f |}; {| b_tx := 1; b_keys := q; b_fees := f |}]; w_clock := 0 |}).
  assert (E3 : run empty_world [OMakeKeys keys (S spare); ONewBuilder f s; ONewBuilder f s] = W arr s s) by reflexivity.
  assert (E4 : step (W arr s s) (OSign 0 k1) = W (upd arr (length keys) k1) s' s).
  { cbn [step]. unfold sign_with. cbn [bld W w_builders nth b_keys s s_off s_len s_arr w_arrays Nat.add]. destruct (Nat.ltb_spec (length keys) (length arr)); [reflexivity | lia]. }
  assert (E5 : step (W (upd arr (length keys) k1) s' s) (OSign 1 k2) = W (upd (upd arr (length keys) k1) (length keys) k2) s' s').
  { cbn [step]. unfold sign_with. cbn [bld W w_builders nth b_keys s s_off s_len s_arr w_arrays Nat.add]. rewrite upd_length. destruct (Nat.ltb_spec (length keys) (length arr)); [reflexivity | lia]. }
  assert (F : firstn (length keys) arr = keys) by (unfold arr; rewrite firstn_app, Nat.sub_diag, firstn_all; cbn [firstn]; apply app_nil_r).
  split; [| split].
  - cbn [valid_run]. split; [exact Logic.I |]. split; [split; [apply Nat.lt_0_1 | exact (Nat.lt_le_incl _ _ L)] |]. split; [split; [apply Nat.lt_0_1 | exact (Nat.lt_le_incl _ _ L)] |]. split; [cbn; lia |]. split; [| exact Logic.I].
    change (valid_op (step (W arr s s) (OSign 0 k1)) (OSign 1 k2)). rewrite E4. cbn. lia.
  - cbn [firstn]. change (builder_keys (step (run empty_world [OMakeKeys keys (S spare); ONewBuilder f s; ONewBuilder f s]) (OSign 0 k1)) 0 = keys ++ [k1]).
    rewrite E3, E4. unfold builder_keys, slice_keys. cbn [bld W w_builders nth b_keys s' s_off s_len s_arr w_arrays].
    pose proof (slice_append arr 0 (length keys) k1 ltac:(cbn; lia)) as Q. cbn [Nat.add] in Q. rewrite Q. cbn [skipn]. rewrite F. reflexivity.
  - change (builder_keys (step (step (run empty_world [OMakeKeys keys (S spare); ONewBuilder f s; ONewBuilder f s]) (OSign 0 k1)) (OSign 1 k2)) 0 = keys ++ [k2]).
    rewrite E3, E4, E5. unfold builder_keys, slice_keys. cbn [bld W w_builders nth b_keys s' s_off s_len s_arr w_arrays].
    pose proof (slice_append (upd arr (length keys) k1) 0 (length keys) k2) as Q. cbn [Nat.add] in Q. rewrite Q by (rewrite upd_length; lia).
    rewrite slice_keep by (cbn; lia). cbn [skipn]. rewrite F. reflexivity.
Qed.
Print Assumptions C35_keys_refuted.
(** Two builders with key slices of their own. *)
Definition ex_pair : list op := [OMakeKeys ex_keys 0; OMakeKeys [repeat 5 96] 3; ONewBuilder ex_fees {| s_arr := 0; s_off := 0; s_len := 2 |};
  ONewBuilder ex_fees {| s_arr := 1; s_off := 0; s_len := 1 |}; OSign 1 (repeat 6 96)].
Example C35_example : let w := @run ex_crypto id_order empty_world ex_pair in
  @reachable ex_crypto id_order w /\ nbuilders w = 2%nat /\ unshared w /\ builder_keys w 1 = [repeat 5 96; repeat 6 96] /\
  valid_op w (OAddInputs 1 [ex_input 5]) /\ owner w (OAddInputs 1 [ex_input 5]) = Some 1%nat.
Proof.
  cbv zeta. split; [exists ex_pair; split; [| reflexivity] |]; [| repeat split].
  - cbn [valid_run ex_pair]. split; [exact Logic.I |]. split; [exact Logic.I |]. repeat (split; [cbv [step make_keys new_tx_builder]; cbn; lia |]). exact Logic.I.
  - intros x y Hx Hy N. assert (nbuilders (@run ex_crypto id_order empty_world ex_pair) = 2%nat) as E by reflexivity. rewrite E in Hx, Hy.
    destruct x as [| [| x]], y as [| [| y]]; try lia; cbn; lia.
  - cbn. lia.
Qed.

(** ** C34 *)
Lemma built_tx (C : TxCrypto) (MO : MapOrder) w b w' t' : reachable w -> (b < nbuilders w)%nat -> build w b = (w', Ok t') ->
  Inv w' /\ (b < nbuilders w')%nat /\ (t' < ntxs w')%nat /\ o_body (obj w' t') = b /\ bld w' b = bld w b /\ t' <> b_tx (bld w' b) /\ builder_tx w' b = load w' t'.
Proof.
  intros R Hb E. pose proof (reachable_inv w R) as I. destruct (build_loads w b w' t' I Hb E) as (h & ws & _ & _ & _ & H4 & _ & H5 & H6 & _ & H7 & H8).
  split; [apply (inv_build w b w' _ I Hb E) |]. split; [pose proof (nbuilders_step w (OBuild b)) as Q; cbn [step] in Q; rewrite E in Q; cbn [fst] in Q; rewrite Q; exact Hb |].
  split; [lia |]. split; [exact H7 |]. split; [exact H8 |]. split; [| exact H4]. rewrite H8. destruct (inv_builders w I b Hb) as (K & _). unfold ntxs in *. lia.
Qed.
(** False: the returned transaction shares its body with the builder, so later calls rewrite it. *)
Theorem C34_refuted : forall (C : TxCrypto) (MO : MapOrder) w b w' t', reachable w -> (b < nbuilders w)%nat -> build w b = (w', Ok t') ->
  (forall x, TTL (Body (load (step w' (OSetTTL b x)) t')) = x) /\
  (forall l, Outputs (Body (load (step w' (OAddOutputs (b_tx (bld w' b)) l)) t')) = Outputs (Body (load w' t')) ++ l) /\
  (forall l, Inputs (Body (load (step w' (OAddInputs (b_tx (bld w' b)) l)) t')) = Inputs (Body (load w' t')) ++ l) /\
  (forall f, Fee (Body (load (step w' (OSetFee (b_tx (bld w' b)) f)) t')) = f).
Proof.
  intros C MO w b w' t' R Hb E. destruct (built_tx C MO w b w' t' R Hb E) as (I' & Hb' & Ht' & EB & _ & _ & EL).
  destruct (inv_builders w' I' b Hb') as (_ & EB' & _). unfold builder_tx in EL.
  repeat split; intros x; cbn [step]; unfold set_builder_ttl, add_tx_outputs, add_tx_inputs, set_tx_fee; rewrite load_put_body by auto; rewrite EB, EB', EL; (destruct (Nat.eq_dec b b); [reflexivity | congruence]).
Qed.
Print Assumptions C34_refuted.
Theorem C34_bytes_refuted : forall (C : TxCrypto) (MO : MapOrder) w b w' t' n n' x, runtime_order -> hash_ok -> reachable w -> (b < nbuilders w)%nat -> build w b = (w', Ok t') ->
  tx_ok (load w' t') -> 0 <= x < 2 ^ 32 -> x <> TTL (Body (load w' t')) ->
  exists s s', snd (tx_bytes n (load w' t')) = Ok s /\ snd (tx_bytes n' (load (step w' (OSetTTL b x)) t')) = Ok s' /\ s <> s'.
Proof.
  intros C MO w b w' t' n n' x RO HO R Hb E K Hx N. destruct (built_tx C MO w b w' t' R Hb E) as (I' & Hb' & Ht' & EB & _ & _ & EL).
  destruct (inv_builders w' I' b Hb') as (_ & EB' & _). unfold builder_tx in EL.
  cbn [step]. unfold set_builder_ttl. rewrite load_put_body by auto. rewrite EB, EB', EL. destruct (Nat.eq_dec b b); [| congruence].
  set (T := load w' t') in *. set (T' := with_body T (set_ttl (Body T) x)).
  assert (K' : tx_ok T').
  { destruct K as ((B1 & B2 & B3 & B4 & B5 & B6 & B7 & B8) & W & M). split; [| split; [exact W | exact M]].
    split; [exact B1 |]. split; [exact B2 |]. split; [exact B3 |]. split; [exact B4 |]. split; [exact B5 |]. split; [exact Hx |]. split; [exact B7 | exact B8]. }
  destruct (tx_bytes_spec n T RO HO K) as [Q J]. destruct (tx_bytes_spec n' T' RO HO K') as [Q' J']. do 2 eexists. split; [rewrite Q; reflexivity |]. split; [rewrite Q'; reflexivity |].
  intros X. apply cbor_inj in X; auto. unfold the_tx in X. apply tx_item_inj in X as (X & _). unfold the_body in X. apply body_item_inj in X as (_ & _ & _ & X & _).
  cbn [Body with_body] in X. destruct (outputs_aux n T) as (_ & _ & _ & Y). destruct (outputs_aux n' T') as (_ & _ & _ & Y'). rewrite Y, Y' in X. apply N. symmetry. exact X.
Qed.
Print Assumptions C34_bytes_refuted.

(** What does leave it alone: everything on other builders, adding keys, building again, and reading the
    transaction; MinFee too once there are witnesses. Metadata maps with two entries are excluded. *)
Definition harmless {C : TxCrypto} {MO : MapOrder} (w : World) (b t : nat) (o : op) : Prop :=
  owner w o <> Some b \/
  match o with
  | OSign b' _ | OBuild b' => b' = b
  | OBytes u | OHash u | OFee u _ => u = t \/ u = b_tx (bld w b)
  | OMinFee b' => b' = b /\ Witness (builder_tx w b) <> []
  | _ => False
  end.
Fixpoint harmless_run {C : TxCrypto} {MO : MapOrder} (w : World) (b t : nat) (l : list op) : Prop :=
  match l with [] => True | o :: r => harmless w b t o /\ harmless_run (step w o) b t r end.

Section Kept.
Context {C : TxCrypto} {MO : MapOrder}.
Definition settled (T : Tx) : Prop := forall n, calc_aux n T = Ok (Body T).
Definition kept (T : Tx) (b t : nat) (w : World) : Prop :=
  Inv w /\ (b < nbuilders w)%nat /\ (t < ntxs w)%nat /\ o_body (obj w t) = b /\ t <> b_tx (bld w b) /\ load w t = T /\
  Body (builder_tx w b) = Body T /\ Metadata (builder_tx w b) = Metadata T.
Lemma settled_same T u : settled T -> Body u = Body T -> Metadata u = Metadata T -> settled u.
Proof. intros S Eb Em n. specialize (S n). unfold calc_aux in *. rewrite Eb, Em. destruct (Metadata T); [exact S | reflexivity]. Qed.
Lemma after_settled {A} n t (k : Tx -> result A) : settled t -> fst (after_aux n t k) = Body t.
Proof. intros S. unfold after_aux. rewrite S. reflexivity. Qed.
Lemma ntxs_step w o : (ntxs w <= ntxs (step w o))%nat.
Proof.
  unfold ntxs. destruct o; cbn [step]; try (cbn; rewrite ?app_length, ?upd_length; cbn; lia).
  - unfold sign_with. destruct (_ <? _)%nat; cbn; lia.
  - rewrite run_bytes_eq. cbn. lia.
  - rewrite run_hash_eq. cbn. lia.
  - rewrite run_fee_eq. cbn. lia.
  - rewrite run_min_fee_eq. cbn. lia.
  - rewrite add_change_eq. cbn. lia.
  - destruct (build w b) as [w' r] eqn:E. cbn [fst]. destruct r as [t' | e |].
    + apply build_eq in E as (h & ws & _ & _ & -> & _). rewrite run_hash_eq. cbn. rewrite app_length, upd_length. cbn. lia.
    + rewrite (build_fail _ _ _ _ E) by discriminate. rewrite run_hash_eq. cbn. lia.
    + rewrite (build_fail _ _ _ _ E) by discriminate. rewrite run_hash_eq. cbn. lia.
Qed.

Lemma put_same_body w i u : Inv w -> (u < ntxs w)%nat -> load (put_body w i (body_of w i)) u = load w u.
Proof. intros I H. rewrite load_put_body by auto. destruct (Nat.eq_dec _ _) as [<- |]; [| reflexivity]. rewrite <- load_body. apply with_id. Qed.

Lemma kept_step T b t w o : settled T -> kept T b t w -> valid_op w o -> harmless w b t o -> kept T b t (step w o).
Proof.
  intros ST (I & Hb & Ht & EB & NT & EL & Eb & Em) V H. pose proof (inv_step w o I V) as I'.
  destruct (inv_builders w I b Hb) as (KB & EBb & _).
  assert (Hb' : (b < nbuilders (step w o))%nat) by (rewrite nbuilders_step; destruct o; lia).
  assert (Ht' : (t < ntxs (step w o))%nat) by (pose proof (ntxs_step w o); lia).
  destruct H as [H | H].
  - destruct (load_isolated w o t I V Ht) as [L1 O1]; [rewrite EB; exact H |]. destruct (load_isolated w o (b_tx (bld w b)) I V KB) as [L2 O2]; [rewrite EBb; exact H |].
    assert (EBL : bld (step w o) b = bld w b) by (apply bld_step; auto; intros k ->; apply H; reflexivity).
    unfold kept, builder_tx. rewrite EBL, L1, L2, O1. fold (builder_tx w b). auto 10.
  - assert (G : forall w', w' = put_body w b (Body T) -> forall k, kept T b t (tick w' k)).
    { intros w' -> k. assert (Ebo : body_of w b = Body T) by (rewrite <- EL, load_body, EB; reflexivity).
      rewrite <- Ebo. unfold kept, builder_tx. rewrite !load_tick. change (obj (tick _ k) t) with (obj w t). change (bld (tick _ k) b) with (bld w b).
      rewrite !(put_same_body w b) by auto. split; [apply inv_tick, inv_put_body; exact I |]. auto 10. }
    assert (SB : settled (builder_tx w b)) by (apply (settled_same T); auto).
    assert (HB : forall A (k : Tx -> result A) n, fst (after_aux n (builder_tx w b) k) = Body T) by (intros A k n; rewrite after_settled by exact SB; exact Eb).
    assert (HT : forall A (k : Tx -> result A) n, fst (after_aux n (load w t) k) = Body T) by (intros A k n; rewrite EL; apply after_settled; exact ST).
    destruct o; try contradiction; cbn [step] in *.
    + subst b0. unfold sign_with in *. destruct (_ <? _)%nat; unfold kept, builder_tx, bld; cbn [w_builders put_builder put_array new_array]; rewrite nth_upd_same by exact Hb; (split; [exact I' |]); (split; [exact Hb' |]); (split; [exact Ht' |]); auto 10.
    + rewrite run_bytes_eq in *. apply G. destruct H as [-> | ->]; [rewrite EB; f_equal; apply HT | rewrite EBb; f_equal; apply HB].
    + rewrite run_hash_eq in *. apply G. destruct H as [-> | ->]; [rewrite EB; f_equal; apply HT | rewrite EBb; f_equal; apply HB].
    + rewrite run_fee_eq in *. apply G. destruct H as [-> | ->]; [rewrite EB; f_equal; apply HT | rewrite EBb; f_equal; apply HB].
    + destruct H as [-> HW]. rewrite run_min_fee_eq in *. cbn [fst] in *. fold (mf_wit w b) in *. rewrite mf_wit_eq in *.
      assert (EW : fee_wit (builder_tx w b) = Witness (builder_tx w b)) by (unfold fee_wit; destruct (Witness (builder_tx w b)); [destruct HW; reflexivity | reflexivity]).
      rewrite EW in *. set (ow := o_wit (obj w (b_tx (bld w b)))) in *.
      assert (PW : forall u, (u < ntxs w)%nat -> load (put_wit w ow (Witness (builder_tx w b))) u = load w u).
      { intros u Hu. rewrite load_put_wit by auto. destruct (Nat.eq_dec _ _) as [Q |]; [| reflexivity]. unfold ow, builder_tx in *. unfold load. cbn [Witness with_witness]. cbn. rewrite <- Q. reflexivity. }
      unfold kept, builder_tx at 1 2. rewrite !load_tick. change (bld (tick _ 5) b) with (bld w b). change (obj (tick _ 5) t) with (obj w t). rewrite !PW by auto. auto 10.
    + subst b0. assert (GH : fst (run_hash w (b_tx (bld w b))) = tick (put_body w b (Body T)) 1) by (rewrite run_hash_eq; cbn [fst]; rewrite EBb; do 2 f_equal; apply HB).
      destruct (G (put_body w b (Body T)) eq_refl 1%nat) as (J1 & J2 & J3 & J4 & J5 & J6 & J7 & J8).
      destruct (build w b) as [w' r] eqn:E. cbn [fst] in *.
      destruct r as [t' | e |].
      * assert (BL := build_loads w b w' t' I Hb E). destruct BL as (h & ws & H1 & H2 & H3 & H4 & _ & H5 & H6 & _ & H7 & H8).
        assert (FB : fst (tx_hash (w_clock w) (builder_tx w b)) = Body T) by apply HB.
        unfold kept. rewrite H4, H3, H8. cbn [Body Metadata]. rewrite FB.
        apply build_eq in E as (h' & ws' & _ & _ & Ew & _). rewrite GH in Ew. set (w1 := tick (put_body w b (Body T)) 1) in *.
        assert (O : obj w' t = obj w t).
        { rewrite Ew. unfold obj. cbn [w_txs new_tx put_tx new_wit w1 tick put_body]. rewrite nth_app_l by (rewrite upd_length; exact Ht). apply nth_upd_other. exact NT. }
        assert (Hw : (o_wit (obj w t) < length (w_wits w))%nat) by (apply (inv_txs w I); auto).
        assert (Lt : load w' t = load w1 t).
        { unfold load. rewrite O. change (obj w1 t) with (obj w t). rewrite Ew. cbn [w_bodies w_wits new_tx put_tx new_wit]. rewrite nth_app_l by exact Hw. reflexivity. }
        rewrite O, Lt. split; [exact I' |]. split; [exact Hb' |]. split; [exact Ht' |]. auto 10.
      * rewrite (build_fail _ _ _ _ E) by discriminate. rewrite GH. unfold kept. auto 10.
      * rewrite (build_fail _ _ _ _ E) by discriminate. rewrite GH. unfold kept. auto 10.
Qed.
End Kept.

Theorem C34_partial : forall (C : TxCrypto) (MO : MapOrder) w b w' t' l, runtime_order -> reachable w -> (b < nbuilders w)%nat ->
  meta_free (Metadata (builder_tx w b)) -> build w b = (w', Ok t') -> valid_run w' l -> harmless_run w' b t' l ->
  load (run w' l) t' = load w' t'.
Proof.
  intros C MO w b w' t' l RO R Hb F E V H. destruct (built_tx C MO w b w' t' R Hb E) as (I' & Hb' & Ht' & EB & _ & NT & EL).
  destruct (build_loads w b w' t' (reachable_inv w R) Hb E) as (h & ws & H1 & _ & H3 & _).
  assert (ST : settled (load w' t')).
  { intros n. unfold tx_hash, after_aux in H1, H3. destruct (calc_aux (w_clock w) (builder_tx w b)) as [b1 | |] eqn:EA; try discriminate. cbn [fst] in H3.
    destruct (calc_aux_free _ n _ _ RO F EA) as [Q _]. rewrite H3. unfold calc_aux in *. cbn [Metadata Body with_body] in *. destruct (Metadata (builder_tx w b)); exact Q. }
  assert (K : kept (load w' t') b t' w') by (unfold kept; rewrite EL; auto 10).
  set (T := load w' t') in *. clearbody T. clear - ST K V H. revert w' K V H. induction l as [| o l IH]; intros w K V H; cbn [run fold_left valid_run harmless_run] in *.
  - apply K.
  - destruct V as [V1 V], H as [H1 H]. unfold run in *. apply IH; auto. apply kept_step; auto.
Qed.
Print Assumptions C34_partial.

Section Shared.
Context {C : TxCrypto} {MO : MapOrder}.
(** A transaction returned by Build, later. *)
Record shares (w : World) (b t : nat) (T : Tx) : Prop := {
  sh_inv : Inv w; sh_b : (b < nbuilders w)%nat; sh_t : (t < ntxs w)%nat; sh_body : o_body (obj w t) = b;
  sh_own : forall b', (b' < nbuilders w)%nat -> t <> b_tx (bld w b');
  sh_valid : o_valid (obj w t) = Valid T;
  sh_wit : Witness (load w t) = Witness T \/ (Witness T = [] /\ Witness (load w t) = [placeholder_witness])
}.
Lemma b_tx_step w o b : Inv w -> valid_op w o -> (b < nbuilders w)%nat -> b_tx (bld (step w o) b) = b_tx (bld w b).
Proof.
  intros I V Hb. destruct o; try (rewrite bld_step by (auto; discriminate); reflexivity).
  cbn [step valid_op] in *. unfold sign_with. unfold nbuilders in Hb. destruct (Nat.eq_dec b b0) as [<- | N].
  - destruct (_ <? _)%nat; unfold bld; cbn [w_builders put_builder put_array new_array]; rewrite nth_upd_same by auto; reflexivity.
  - destruct (_ <? _)%nat; unfold bld; cbn [w_builders put_builder put_array new_array]; rewrite nth_upd_other by auto; reflexivity.
Qed.
(** Only assigning its metadata and building change a transaction object. *)
Lemma obj_step w o t : valid_op w o -> (t < ntxs w)%nat -> (forall b, (b < nbuilders w)%nat -> t <> b_tx (bld w b)) ->
  o_body (obj (step w o) t) = o_body (obj w t) /\ o_wit (obj (step w o) t) = o_wit (obj w t) /\ o_valid (obj (step w o) t) = o_valid (obj w t) /\
  ((forall m, o <> OSetMetadata t m) -> o_meta (obj (step w o) t) = o_meta (obj w t)).
Proof.
  intros V Ht N. destruct o; cbn [step valid_op] in *; try (repeat split; reflexivity).
  - unfold new_tx_builder, obj. cbn. rewrite nth_app_l by exact Ht. auto.
  - unfold sign_with. destruct (_ <? _)%nat; repeat split; reflexivity.
  - unfold set_metadata, obj. cbn [w_txs put_tx]. destruct (Nat.eq_dec t t0) as [<- | Nt].
    + rewrite nth_upd_same by exact Ht. cbn [o_body o_wit o_valid o_meta]. do 3 (split; [reflexivity |]). intros H. destruct (H m). reflexivity.
    + rewrite nth_upd_other by auto. auto.
  - rewrite run_bytes_eq. auto.
  - rewrite run_hash_eq. auto.
  - rewrite run_fee_eq. auto.
  - rewrite run_min_fee_eq. auto.
  - rewrite add_change_eq. auto.
  - assert (G : forall x, obj (fst (run_hash w x)) t = obj w t) by (intros; rewrite run_hash_eq; reflexivity).
    destruct (build w b) as [w' r] eqn:E. cbn [fst]. destruct r as [t' | e |].
    + apply build_eq in E as (h & ws & _ & _ & -> & _). rewrite run_hash_eq. cbn [fst]. match goal with |- context [obj ?x t] => assert (Q : obj x t = obj w t) end; [| rewrite Q; auto].
      unfold obj at 1. cbn [w_txs new_tx put_tx new_wit]. rewrite nth_app_l by (rewrite upd_length; exact Ht). apply nth_upd_other. first [exact (N b V) | exact (not_eq_sym (N b V))].
    + rewrite (build_fail _ _ _ _ E) by discriminate. rewrite G. auto.
    + rewrite (build_fail _ _ _ _ E) by discriminate. rewrite G. auto.
Qed.
(** Only MinFee, called by AddChangeIfNeeded too, changes a witness set, and only an empty one. *)
Lemma wits_step w o i : Inv w -> valid_op w o -> (i < length (w_wits w))%nat ->
  nth i (w_wits (step w o)) [] = nth i (w_wits w) [] \/ (nth i (w_wits w) [] = [] /\ nth i (w_wits (step w o)) [] = [placeholder_witness]).
Proof.
  intros I V Hi.
  assert (M : forall b ws, (b < nbuilders w)%nat -> ws = upd (w_wits w) (o_wit (obj w (b_tx (bld w b)))) (mf_wit w b) ->
    nth i ws [] = nth i (w_wits w) [] \/ (nth i (w_wits w) [] = [] /\ nth i ws [] = [placeholder_witness])).
  { intros b ws Hb ->. destruct (Nat.eq_dec i (o_wit (obj w (b_tx (bld w b))))) as [Ei | Ni]; [| left; apply nth_upd_other; auto]. rewrite <- Ei, nth_upd_same by exact Hi.
    rewrite mf_wit_eq. unfold fee_wit, builder_tx, load. cbn [Witness]. rewrite <- Ei. destruct (nth i (w_wits w) []); [right | left]; auto. }
  destruct o; cbn [step valid_op] in *; try (left; reflexivity).
  - left. unfold new_tx_builder. cbn. apply nth_app_l. exact Hi.
  - left. unfold sign_with. destruct (_ <? _)%nat; reflexivity.
  - left. rewrite run_bytes_eq. reflexivity.
  - left. rewrite run_hash_eq. reflexivity.
  - left. rewrite run_fee_eq. reflexivity.
  - apply (M b); [exact V |]. rewrite run_min_fee_eq. reflexivity.
  - apply (M b); [exact V |]. rewrite add_change_eq. reflexivity.
  - left. assert (G : forall x, w_wits (fst (run_hash w x)) = w_wits w) by (intros; rewrite run_hash_eq; reflexivity).
    destruct (build w b) as [w' r] eqn:E. cbn [fst]. destruct r as [t' | e |].
    + apply build_eq in E as (h & ws & _ & _ & -> & _). rewrite run_hash_eq. cbn. apply nth_app_l. exact Hi.
    + rewrite (build_fail _ _ _ _ E) by discriminate. rewrite G. reflexivity.
    + rewrite (build_fail _ _ _ _ E) by discriminate. rewrite G. reflexivity.
Qed.
Lemma shares_step w o b t T : shares w b t T -> valid_op w o -> shares (step w o) b t T.
Proof.
  intros [I Hb Ht EB N EV EW] V. destruct (obj_step w o t V Ht N) as (O1 & O2 & O3 & _). pose proof (inv_step w o I V) as I'. pose proof (ntxs_step w o) as Lt.
  constructor; auto.
  - rewrite nbuilders_step. destruct o; auto.
  - lia.
  - congruence.
  - intros b' Hb'. destruct (Nat.lt_ge_cases b' (nbuilders w)) as [L | L]; [rewrite b_tx_step by auto; apply N; exact L |].
    rewrite nbuilders_step in Hb'. destruct o; try lia. assert (b' = nbuilders w) by lia. subst b'. cbn [step]. unfold new_tx_builder, bld, nbuilders. cbn. rewrite nth_app_last. cbn [b_tx]. unfold ntxs in Ht. lia.
  - congruence.
  - destruct (inv_txs w I t Ht) as [_ Hw]. unfold load in *. cbn [Witness] in *. rewrite O2. destruct (wits_step w o (o_wit (obj w t)) I V Hw) as [-> | [X ->]]; [exact EW |].
    destruct EW as [Q | [_ Q]]; [right; split; congruence | congruence].
Qed.
Lemma shares_run b t T l : forall w, shares w b t T -> valid_run w l -> shares (run w l) b t T /\
  ((forall m, ~ In (OSetMetadata t m) l) -> o_meta (obj (run w l) t) = o_meta (obj w t)).
Proof.
  induction l as [| o l IH]; intros w S V; [split; [exact S | reflexivity] |]. destruct V as [V1 V]. destruct (IH (step w o) (shares_step w o b t T S V1) V) as [H1 H2]. split; [exact H1 |].
  intros H. change (run w (o :: l)) with (run (step w o) l). rewrite H2 by (intros m Hm; apply (H m); right; exact Hm). apply (obj_step w o t V1 (sh_t _ _ _ _ S) (sh_own _ _ _ _ S)). intros m ->. apply (H m). left. reflexivity.
Qed.
End Shared.

(** Exactly: after any further calls, on any builder or transaction, the body of a built transaction is the body its builder has then; the
    rest is as Build left it, unless it had no witness (a placeholder may appear) or its own metadata are assigned. *)
Theorem C34_exact : forall (C : TxCrypto) (MO : MapOrder) w b w' t' l, reachable w -> (b < nbuilders w)%nat -> build w b = (w', Ok t') -> valid_run w' l ->
  let T := load w' t' in let later := load (run w' l) t' in
  Body later = Body (builder_tx (run w' l) b) /\ Valid later = Valid T /\
  (Witness later = Witness T \/ (Witness T = [] /\ Witness later = [{| VKey := repeat 0 32; Signature := repeat 0 64 |}])) /\
  ((forall m, ~ In (OSetMetadata t' m) l) -> Metadata later = Metadata T).
Proof.
  intros C MO w b w' t' l R Hb E V T later. pose proof (reachable_inv w R) as I. destruct (built_tx C MO w b w' t' R Hb E) as (I' & Hb' & Ht' & EB & _ & _ & _).
  assert (S0 : shares w' b t' T).
  { constructor; auto. intros b' L. destruct (build_loads w b w' t' I Hb E) as (_ & _ & _ & _ & _ & _ & _ & -> & _).
    assert (L' : (b' < nbuilders w)%nat) by (pose proof (nbuilders_step w (OBuild b)) as Q; cbn [step] in Q; rewrite E in Q; cbn [fst] in Q; lia).
    pose proof (b_tx_step w (OBuild b) b' I Hb L') as Q. cbn [step] in Q. rewrite E in Q. cbn [fst] in Q. rewrite Q. destruct (inv_builders w I b' L') as (K & _). unfold ntxs. lia. }
  destruct (shares_run b t' T l w' S0 V) as [[I2 B2 T2 E2 _ EV EW] HM]. split; [| split; [exact EV | split; [exact EW | exact HM]]].
  unfold later, builder_tx. rewrite !load_body, E2. destruct (inv_builders _ I2 b B2) as (_ & -> & _). reflexivity.
Qed.
Print Assumptions C34_exact.
Section Ex34.
#[local] Existing Instance ex_crypto.
#[local] Existing Instance id_order.
Example C34_example : let w' := fst (build ex_world 0) in snd (build ex_world 0) = Ok 1%nat /\ meta_free (Metadata (builder_tx ex_world 0)) /\
  valid_run w' [OSign 0 (repeat 1 96); OBuild 0; OBytes 1; OMinFee 0] /\ harmless_run w' 0 1 [OSign 0 (repeat 1 96); OBuild 0; OBytes 1; OMinFee 0] /\
  TTL (Body (load w' 1)) = 5000.
Proof.
  split; [vm_compute; reflexivity |]. split; [exact Logic.I |]. split; [| split; [| vm_compute; reflexivity]].
  - cbn [valid_run]. repeat (split; [vm_compute; lia |]). exact Logic.I.
  - cbn [harmless_run]. split; [right; reflexivity |]. split; [right; reflexivity |]. split; [right; left; reflexivity |]. split; [right; split; [reflexivity | vm_compute; discriminate] | exact Logic.I].
Qed.
End Ex34.

(** The placeholder address of MinFee is what NewAddress returns for the constant in the source. *)
Theorem C26_placeholder : forall (U : Unicode) (R : Runtime), NewAddress placeholder_text = Ok placeholder_addr.
Proof.
  intros U R. destruct (C06_string_roundtrip U R placeholder_addr) as (s & body & E & _ & N & _).
  - assert (B : forall l, length l = 28%nat -> forallb (fun x => (0 <=? x) && (x <? 256)) l = true -> length l = 28%nat /\ all_bytes l).
    { intros l L F. split; [exact L |]. intros x Hx. rewrite forallb_forall in F. apply F in Hx. lia. }
    split; [split; (split; [cbn; auto | apply B; reflexivity]) | first [left; reflexivity | right; reflexivity]].
  - intros [].
  - assert (Q : addr_string placeholder_addr = Ok placeholder_text) by (vm_compute; reflexivity). rewrite Q in E. apply Ok_inj in E. subst s. exact N.
Qed.
Print Assumptions C26_placeholder.
