(** The auxiliary data hash along a history. *)
From Verif.Model Require Import Base Cbor Address Tx Builder.
From Verif.Spec Require Import CborSpec TxSpec MdSpec.
From Verif.Proofs Require Import Util HeapFacts TxFacts HeapProps.

Section Aux.
Context {C : TxCrypto} {MO : MapOrder}.

Definition metas (P : option md -> Prop) (w : World) : Prop := Forall (fun o => P (o_meta o)) (w_txs w).
Lemma metas_obj (P : option md -> Prop) w t : P None -> metas P w -> P (o_meta (obj w t)).
Proof.
  intros N H. unfold obj. destruct (Nat.ltb_spec t (length (w_txs w))) as [L | L].
  - unfold metas in H. rewrite Forall_forall in H. apply H, nth_In, L.
  - rewrite nth_overflow by auto. exact N.
Qed.
Lemma Forall_upd {A} (P : A -> Prop) l i x : Forall P l -> P x -> Forall P (upd l i x).
Proof. intros H X. revert i. induction H as [| y l Y H IH]; intros [| i]; cbn [upd]; constructor; auto. Qed.
Lemma metas_step (P : option md -> Prop) w o : P None -> metas P w -> metadata_all P o -> metas P (step w o).
Proof.
  intros N H G. destruct o; cbn [step metadata_all] in *; try exact H.
  - unfold new_tx_builder, metas in *. cbn. apply Forall_app. split; [exact H | constructor; [exact N | constructor]].
  - unfold sign_with. destruct (_ <? _)%nat; exact H.
  - unfold set_metadata, metas in *. cbn. apply Forall_upd; auto.
  - rewrite run_bytes_eq. exact H.
  - rewrite run_hash_eq. exact H.
  - rewrite run_fee_eq. exact H.
  - rewrite run_min_fee_eq. exact H.
  - rewrite add_change_eq. exact H.
  - destruct (build w b) as [w' r] eqn:E. cbn [fst]. destruct r as [t' | e |].
    + apply build_eq in E as (h & ws & _ & _ & E & _). rewrite run_hash_eq in E. cbn [fst] in E. rewrite E. unfold metas in *. cbn.
      assert (Q : P (o_meta (obj w (b_tx (bld w b))))) by (apply metas_obj; auto).
      apply Forall_app. split; [apply Forall_upd; auto | constructor; [exact Q | constructor]].
    + rewrite (build_fail _ _ _ _ E) by discriminate. rewrite run_hash_eq. exact H.
    + rewrite (build_fail _ _ _ _ E) by discriminate. rewrite run_hash_eq. exact H.
Qed.

Lemma after_aux_body {A} n t (k : Tx -> result A) : runtime_order -> meta_ok (Metadata t) -> fst (after_aux n t k) = aux_body n t.
Proof. intros RO M. unfold after_aux. rewrite calc_aux_spec by auto. reflexivity. Qed.
Lemma aux_body_hash n t : AuxHash (aux_body n t) = match Metadata t with Some m => blake2b256 (cbor (md_item (map_order n m))) | None => AuxHash (Body t) end.
Proof. unfold aux_body. destruct (Metadata t); reflexivity. Qed.

Lemma aux_step w o i : runtime_order -> Inv w -> metas meta_ok w -> valid_op w o ->
  AuxHash (body_of (step w o) i) = new_aux w o i (AuxHash (body_of w i)).
Proof.
  intros RO I M V.
  assert (MK : forall t, meta_ok (Metadata (load w t))) by (intros t; apply (metas_obj meta_ok w t Logic.I M)).
  assert (BT : forall b, (b < nbuilders w)%nat -> o_body (obj w (b_tx (bld w b))) = b /\ (b < length (w_bodies w))%nat).
  { intros b Hb. destruct (inv_builders w I b Hb) as (_ & -> & _). rewrite (inv_bodies w I). auto. }
  assert (PS : forall j b, AuxHash b = AuxHash (body_of w j) -> AuxHash (body_of (put_body w j b) i) = AuxHash (body_of w i)).
  { intros j b E. rewrite body_put. destruct (Nat.eqb_spec i j) as [-> | N]; cbn [andb]; auto. destruct (_ <? _)%nat; auto. }
  assert (PA : forall t n, (o_body (obj w t) < length (w_bodies w))%nat -> AuxHash (body_of (put_body w (o_body (obj w t)) (aux_body n (load w t))) i) =
    if Nat.eqb i (o_body (obj w t)) then match Metadata (load w t) with Some m => blake2b256 (cbor (md_item (map_order n m))) | None => AuxHash (body_of w i) end else AuxHash (body_of w i)).
  { intros t n L. rewrite body_put. destruct (Nat.eqb_spec i (o_body (obj w t))) as [-> | N]; cbn [andb]; auto.
    replace (_ <? _)%nat with true by (symmetry; apply Nat.ltb_lt; exact L). rewrite aux_body_hash. reflexivity. }
  destruct o; cbn [step valid_op new_aux] in *; try reflexivity.
  - unfold new_tx_builder, body_of. cbn. destruct (Nat.ltb_spec i (length (w_bodies w))) as [L | L].
    + rewrite nth_app_l by auto. reflexivity.
    + rewrite (nth_overflow (w_bodies w)) by auto. destruct (Nat.eq_dec i (length (w_bodies w))) as [-> | N].
      * rewrite nth_app_last. reflexivity.
      * rewrite nth_overflow by (rewrite app_length; cbn; lia). reflexivity.
  - unfold sign_with. destruct (_ <? _)%nat; reflexivity.
  - apply PS. reflexivity.
  - apply PS. reflexivity.
  - apply PS. reflexivity.
  - apply PS. reflexivity.
  - rewrite run_bytes_eq. unfold tx_bytes. rewrite after_aux_body by auto. apply (PA t). apply (inv_txs w I t V).
  - rewrite run_hash_eq. unfold tx_hash. rewrite after_aux_body by auto. apply (PA t). apply (inv_txs w I t V).
  - rewrite run_fee_eq. unfold tx_fee. rewrite after_aux_body by auto. apply (PA t). apply (inv_txs w I t V).
  - rewrite run_min_fee_eq. reflexivity.
  - rewrite add_change_eq. destruct (BT b V) as [EB LB]. apply PS. reflexivity.
  - destruct (build w b) as [w' r] eqn:E. cbn [fst]. destruct (BT b V) as [EB LB].
    assert (G : AuxHash (body_of (fst (run_hash w (b_tx (bld w b)))) i) = if Nat.eqb i b then match Metadata (load w (b_tx (bld w b))) with Some m => blake2b256 (cbor (md_item (map_order (w_clock w) m))) | None => AuxHash (body_of w i) end else AuxHash (body_of w i)).
    { rewrite run_hash_eq. unfold tx_hash. rewrite after_aux_body by auto. pose proof (PA (b_tx (bld w b)) (w_clock w)) as Q. rewrite EB in Q. cbn [fst]. rewrite EB. apply Q, LB. }
    destruct r as [t' | e |].
    + apply build_eq in E as (h & ws & _ & _ & E & _). rewrite E. exact G.
    + rewrite (build_fail _ _ _ _ E) by discriminate. exact G.
    + rewrite (build_fail _ _ _ _ E) by discriminate. exact G.
Qed.
End Aux.
