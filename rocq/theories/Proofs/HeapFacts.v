(** Invariants of the heap of builders and transactions. *)
From Verif.Model Require Import Base Cbor Address Tx Builder.
From Verif.Spec Require Export World.
From Verif.Proofs Require Import Util.

Lemma upd_length {A} (l : list A) i x : length (upd l i x) = length l.
Proof. revert i. induction l as [| y l IH]; intros [| i]; cbn; auto. Qed.
Lemma nth_upd_same {A} (l : list A) i x d : (i < length l)%nat -> nth i (upd l i x) d = x.
Proof. revert i. induction l as [| y l IH]; intros [| i] H; cbn in *; try lia; auto. apply IH. lia. Qed.
Lemma nth_upd_other {A} (l : list A) i j x d : i <> j -> nth i (upd l j x) d = nth i l d.
Proof. revert i j. induction l as [| y l IH]; intros [| i] [| j] H; cbn; auto; try congruence. Qed.
Lemma nth_app_l {A} (l l' : list A) i d : (i < length l)%nat -> nth i (l ++ l') d = nth i l d.
Proof. intros. apply app_nth1. auto. Qed.
Lemma nth_app_last {A} (l : list A) x d : nth (length l) (l ++ [x]) d = x.
Proof. rewrite app_nth2, Nat.sub_diag by lia. reflexivity. Qed.
Lemma upd_id {A} (l : list A) i d : upd l i (nth i l d) = l.
Proof. revert i. induction l as [| y l IH]; intros [| i]; cbn; auto. f_equal. apply IH. Qed.

Section Heap.
Context {C : TxCrypto} {MO : MapOrder}.

Definition slice_in (w : World) (s : KeySlice) : Prop :=
  (s_arr s < length (w_arrays w) /\ s_off s + s_len s <= length (nth (s_arr s) (w_arrays w) []))%nat.

(** Builder i owns body i; a witness set belongs to the transactions of one builder. *)
Record Inv (w : World) : Prop := {
  inv_bodies : length (w_bodies w) = length (w_builders w);
  inv_txs : forall t, (t < length (w_txs w))%nat -> (o_body (obj w t) < length (w_bodies w) /\ o_wit (obj w t) < length (w_wits w))%nat;
  inv_builders : forall b, (b < length (w_builders w))%nat ->
    (b_tx (bld w b) < length (w_txs w))%nat /\ o_body (obj w (b_tx (bld w b))) = b /\ slice_in w (b_keys (bld w b));
  inv_wits : forall t u, (t < length (w_txs w))%nat -> (u < length (w_txs w))%nat -> o_wit (obj w t) = o_wit (obj w u) -> o_body (obj w t) = o_body (obj w u)
}.

Lemma inv_empty : Inv empty_world.
Proof. constructor; cbn; intros; try lia; auto. Qed.

(** Changing the contents of bodies and witness sets, or the clock. *)
Lemma inv_frame w w' : w_txs w' = w_txs w -> w_builders w' = w_builders w -> w_arrays w' = w_arrays w ->
  length (w_bodies w') = length (w_bodies w) -> length (w_wits w') = length (w_wits w) -> Inv w -> Inv w'.
Proof.
  intros Et Eb Ea Lb Lw [H1 H2 H3 H4].
  constructor; unfold obj, bld, slice_in in *; rewrite ?Et, ?Eb, ?Ea, ?Lb, ?Lw; auto.
Qed.

Lemma inv_put_body w i b : Inv w -> Inv (put_body w i b).
Proof. apply inv_frame; cbn; rewrite ?upd_length; auto. Qed.
Lemma inv_put_wit w i b : Inv w -> Inv (put_wit w i b).
Proof. apply inv_frame; cbn; rewrite ?upd_length; auto. Qed.
Lemma inv_tick w n : Inv w -> Inv (tick w n).
Proof. apply inv_frame; auto. Qed.

Lemma slice_in_arrays w w' s : slice_in w s -> (forall a, (a < length (w_arrays w))%nat -> (a < length (w_arrays w'))%nat /\
  length (nth a (w_arrays w') []) = length (nth a (w_arrays w) [])) -> slice_in w' s.
Proof. intros [H1 H2] H. destruct (H _ H1) as [H3 H4]. split; auto. rewrite H4. auto. Qed.

Lemma inv_new_array w a : Inv w -> Inv (new_array w a).
Proof.
  intros [H1 H2 H3 H4]. constructor; cbn; auto. intros b Hb. destruct (H3 b Hb) as (K1 & K2 & K3). split; [auto |]. split; [auto |].
  eapply slice_in_arrays; [exact K3 |]. cbn. intros a' Ha. rewrite app_length. split; [lia |]. rewrite nth_app_l by auto. reflexivity.
Qed.

Lemma inv_put_array w i a : length a = length (nth i (w_arrays w) []) -> Inv w -> Inv (put_array w i a).
Proof.
  intros L [H1 H2 H3 H4]. constructor; cbn; auto. intros b Hb. destruct (H3 b Hb) as (K1 & K2 & K3). split; [auto |]. split; [auto |].
  eapply slice_in_arrays; [exact K3 |]. cbn. intros a' Ha. rewrite upd_length. split; auto.
  destruct (Nat.eq_dec a' i) as [-> | N]; [rewrite nth_upd_same by auto; auto | rewrite nth_upd_other by auto; auto].
Qed.

(** The builder keeps its transaction. *)
Lemma inv_put_builder w b bo : Inv w -> (b < length (w_builders w))%nat -> b_tx bo = b_tx (bld w b) -> slice_in w (b_keys bo) -> Inv (put_builder w b bo).
Proof.
  intros [H1 H2 H3 H4] Hb Et S. constructor; cbn; rewrite ?upd_length; auto.
  intros b' Hb'. unfold bld. cbn. destruct (Nat.eq_dec b' b) as [-> | N].
  - rewrite nth_upd_same by auto. destruct (H3 b Hb) as (K1 & K2 & _). unfold obj in *. cbn. rewrite Et. auto.
  - rewrite nth_upd_other by auto. apply H3. auto.
Qed.

Lemma inv_new_builder w fees keys : Inv w -> slice_in w keys -> Inv (new_tx_builder w fees keys).
Proof.
  intros [H1 H2 H3 H4] S. unfold new_tx_builder. constructor; unfold obj, bld; cbn.
  - rewrite !app_length, H1. reflexivity.
  - intros t Ht. rewrite app_length in *. cbn in Ht. rewrite !app_length. cbn [length].
    destruct (Nat.eq_dec t (length (w_txs w))) as [-> | N].
    + rewrite nth_app_last. cbn. lia.
    + rewrite nth_app_l by lia. destruct (H2 t ltac:(lia)) as [K1 K2]. unfold obj in *. lia.
  - intros b Hb. rewrite app_length in *. cbn in Hb. cbn [length].
    destruct (Nat.eq_dec b (length (w_builders w))) as [-> | N].
    + rewrite nth_app_last. cbn. rewrite nth_app_last. cbn. split; [lia |]. split; [auto |]. exact S.
    + rewrite (nth_app_l (w_builders w)) by lia. destruct (H3 b ltac:(lia)) as (K1 & K2 & K3). unfold obj, bld in *. rewrite nth_app_l by auto.
      split; [lia |]. split; auto.
  - intros t u Ht Hu. rewrite app_length in *. cbn in Ht, Hu.
    destruct (Nat.eq_dec t (length (w_txs w))) as [-> | Nt], (Nat.eq_dec u (length (w_txs w))) as [-> | Nu];
      rewrite ?nth_app_last, ?nth_app_l by lia; cbn; auto.
    + intros E. destruct (H2 u ltac:(lia)) as [_ K]. unfold obj in K. lia.
    + intros E. destruct (H2 t ltac:(lia)) as [_ K]. unfold obj in K. lia.
    + apply H4; lia.
Qed.

Lemma inv_set_metadata w t m : Inv w -> (t < length (w_txs w))%nat -> Inv (set_metadata w t m).
Proof.
  intros [H1 H2 H3 H4] Ht.
  assert (G : forall u, o_body (obj (set_metadata w t m) u) = o_body (obj w u) /\ o_wit (obj (set_metadata w t m) u) = o_wit (obj w u)).
  { intros u. unfold set_metadata, obj. cbn. destruct (Nat.eq_dec u t) as [-> | N]; [rewrite nth_upd_same by auto; auto | rewrite nth_upd_other by auto; auto]. }
  constructor.
  - exact H1.
  - intros u Hu. destruct (G u) as [-> ->]. unfold set_metadata in *. cbn in *. rewrite upd_length in Hu. auto.
  - intros b Hb. destruct (H3 b Hb) as (K1 & K2 & K3). split; [unfold set_metadata; cbn; rewrite upd_length; exact K1 |]. split; [| exact K3].
    destruct (G (b_tx (bld w b))) as [G1 _]. exact (eq_trans G1 K2).
  - intros u v Hu Hv. destruct (G u) as [-> ->], (G v) as [-> ->]. unfold set_metadata in *. cbn in Hu, Hv. rewrite upd_length in *. auto.
Qed.

(** Where bodies go through the methods that compute the hash. *)
Lemma run_bytes_eq w t : fst (run_bytes w t) = tick (put_body w (o_body (obj w t)) (fst (tx_bytes (w_clock w) (load w t)))) 2.
Proof. unfold run_bytes. destruct (tx_bytes _ _). reflexivity. Qed.
Lemma run_hash_eq w t : run_hash w t = (tick (put_body w (o_body (obj w t)) (fst (tx_hash (w_clock w) (load w t)))) 1, snd (tx_hash (w_clock w) (load w t))).
Proof. unfold run_hash. destruct (tx_hash _ _). reflexivity. Qed.
Lemma run_fee_eq w t l : fst (run_fee w t l) = tick (put_body w (o_body (obj w t)) (fst (tx_fee (w_clock w) l (load w t)))) 2.
Proof. unfold run_fee. destruct (tx_fee _ _). reflexivity. Qed.
Lemma run_min_fee_eq w b : run_min_fee w b =
  (tick (put_wit w (o_wit (obj w (b_tx (bld w b)))) (snd (min_fee (w_clock w) (b_fees (bld w b)) (builder_tx w b)))) 5,
   fst (min_fee (w_clock w) (b_fees (bld w b)) (builder_tx w b))).
Proof. unfold run_min_fee, builder_tx. destruct (min_fee _ _ _). reflexivity. Qed.
Definition mf_wit (w : World) (b : nat) : list VKeyWitness := snd (min_fee (w_clock w) (b_fees (bld w b)) (builder_tx w b)).
Lemma add_change_eq w b a : add_change_if_needed w b a =
  put_body (tick (put_wit w (o_wit (obj w (b_tx (bld w b)))) (mf_wit w b)) 5) (o_body (obj w (b_tx (bld w b))))
    (add_change (Body (builder_tx w b)) (mf w b) a).
Proof. unfold add_change_if_needed. rewrite run_min_fee_eq. reflexivity. Qed.

Lemma inv_run_hash w t : Inv w -> Inv (fst (run_hash w t)).
Proof. intros H. rewrite run_hash_eq. apply inv_tick, inv_put_body, H. Qed.

(** What a successful Build does. *)
Lemma build_eq w b w' t' : build w b = (w', Ok t') ->
  exists h ws, snd (tx_hash (w_clock w) (builder_tx w b)) = Ok h /\ sign_all (builder_keys w b) h = Ok ws /\
    let w1 := fst (run_hash w (b_tx (bld w b))) in
    let o := obj w (b_tx (bld w b)) in
    let o' := {| o_body := o_body o; o_wit := length (w_wits w); o_valid := o_valid o; o_meta := o_meta o |} in
    w' = new_tx (put_tx (new_wit w1 ws) (b_tx (bld w b)) o') o' /\ t' = length (w_txs w).
Proof.
  unfold build. rewrite run_hash_eq. cbn [fst snd]. unfold builder_tx, builder_keys.
  destruct (snd (tx_hash _ _)) as [h | |] eqn:Eh; try discriminate.
  destruct (sign_all _ h) as [ws | |] eqn:Es; try discriminate. intros H. injection H as <- <-.
  exists h, ws. split; [auto |]. split; [exact Es |]. split; reflexivity.
Qed.

Lemma build_fail w b r w' : build w b = (w', r) -> (forall t, r <> Ok t) -> w' = fst (run_hash w (b_tx (bld w b))).
Proof.
  unfold build. rewrite run_hash_eq. cbn [fst snd]. destruct (snd (tx_hash _ _)) as [h | |]; [destruct (sign_all _ h) as [ws | |] |  |];
    intros H N; injection H as <- <-; auto. exfalso. eapply N. reflexivity.
Qed.

Lemma inv_build w b w' t' : Inv w -> (b < length (w_builders w))%nat -> build w b = (w', Ok t') -> Inv w'.
Proof.
  intros [H1 H2 H3 H4] Hb E. apply build_eq in E as (h & ws & _ & _ & E & _). rewrite run_hash_eq in E. cbn [fst] in E.
  destruct (H3 b Hb) as (K1 & K2 & _). set (t := b_tx (bld w b)) in *. set (o := obj w t) in *.
  set (o' := {| o_body := o_body o; o_wit := length (w_wits w); o_valid := o_valid o; o_meta := o_meta o |}) in *.
  assert (Etx : w_txs w' = upd (w_txs w) t o' ++ [o']) by (rewrite E; reflexivity).
  assert (Ew : w_wits w' = w_wits w ++ [ws]) by (rewrite E; reflexivity).
  assert (Eb : length (w_bodies w') = length (w_bodies w)) by (rewrite E; cbn; apply upd_length).
  assert (Ebl : w_builders w' = w_builders w) by (rewrite E; reflexivity).
  assert (Ea : w_arrays w' = w_arrays w) by (rewrite E; reflexivity).
  assert (Lt : length (w_txs w') = S (length (w_txs w))) by (rewrite Etx, app_length, upd_length; cbn; lia).
  assert (Lw : length (w_wits w') = S (length (w_wits w))) by (rewrite Ew, app_length; cbn; lia).
  assert (G : forall u, (u < length (w_txs w'))%nat ->
    (u < length (w_txs w) /\ u <> t /\ obj w' u = obj w u)%nat \/ ((u = t \/ u = length (w_txs w)) /\ obj w' u = o')).
  { intros u Hu. unfold obj. rewrite Etx. destruct (Nat.eq_dec u (length (w_txs w))) as [-> | Nu].
    - right. split; auto. rewrite <- (upd_length (w_txs w) t o') at 1. rewrite nth_app_last. auto.
    - rewrite nth_app_l by (rewrite upd_length; lia). destruct (Nat.eq_dec u t) as [-> | Nt].
      + right. split; auto. rewrite nth_upd_same by auto. auto.
      + left. rewrite nth_upd_other by auto. split; [lia |]. auto. }
  assert (Bo : o_body o' = b) by exact K2.
  constructor.
  - rewrite Eb, Ebl. auto.
  - intros u Hu. rewrite Eb, Lw. destruct (G u Hu) as [(U1 & U2 & ->) | (_ & ->)].
    + destruct (H2 u U1). lia.
    + rewrite Bo. cbn. rewrite H1. lia.
  - intros b' Hb'. unfold bld, slice_in in *. rewrite Ebl, Ea in *. destruct (H3 b' Hb') as (J1 & J2 & J3). split; [lia |]. split; [| exact J3].
    destruct (G (b_tx (nth b' (w_builders w) nil_builder))) as [(U1 & U2 & ->) | ([U | U] & ->)]; [lia | auto | | lia].
    rewrite Bo. rewrite U in J2. unfold o in *. congruence.
  - intros u v Hu Hv. destruct (G u Hu) as [(U1 & U2 & ->) | (_ & ->)], (G v Hv) as [(V1 & V2 & ->) | (_ & ->)]; auto.
    + cbn [o_wit o']. intros Ex. destruct (H2 u U1). lia.
    + cbn [o_wit o']. intros Ex. destruct (H2 v V1). lia.
Qed.

Lemma inv_step w o : Inv w -> valid_op w o -> Inv (step w o).
Proof.
  intros H V. destruct o; cbn [step valid_op] in *.
  - apply inv_new_array; auto.
  - apply inv_new_builder; auto.
  - destruct (inv_builders w H b V) as (K1 & K2 & [K3 K4]). unfold sign_with. set (bo := bld w b) in *. set (s := b_keys bo) in *.
    destruct (Nat.ltb_spec (s_off s + s_len s) (length (nth (s_arr s) (w_arrays w) []))) as [L | L].
    + apply inv_put_builder; auto.
      * apply inv_put_array; auto. apply upd_length.
      * split; cbn; [rewrite upd_length; auto |]. rewrite nth_upd_same by auto. rewrite upd_length. lia.
    + apply inv_put_builder; auto.
      * apply inv_new_array; auto.
      * split; cbn; [rewrite app_length; cbn [length]; lia |]. rewrite nth_app_last, app_length. cbn [length]. lia.
  - apply inv_put_body; auto.
  - apply inv_put_body; auto.
  - apply inv_put_body; auto.
  - apply inv_put_body; auto.
  - apply inv_set_metadata; auto.
  - rewrite run_bytes_eq. apply inv_tick, inv_put_body; auto.
  - apply inv_run_hash; auto.
  - rewrite run_fee_eq. apply inv_tick, inv_put_body; auto.
  - rewrite run_min_fee_eq. cbn [fst]. apply inv_tick, inv_put_wit; auto.
  - rewrite add_change_eq. apply inv_put_body, inv_tick, inv_put_wit; auto.
  - destruct (build w b) as [w' r] eqn:E. cbn [fst]. destruct r as [t' | e |].
    + eapply inv_build; eauto.
    + rewrite (build_fail _ _ _ _ E) by discriminate. apply inv_run_hash; auto.
    + rewrite (build_fail _ _ _ _ E) by discriminate. apply inv_run_hash; auto.
Qed.

Lemma inv_run l : forall w, Inv w -> valid_run w l -> Inv (run w l).
Proof. induction l as [| o l IH]; intros w H V; [auto |]. destruct V as [V1 V2]. apply IH; auto. apply inv_step; auto. Qed.

Lemma reachable_inv w : reachable w -> Inv w.
Proof. intros (l & V & ->). apply inv_run; auto. apply inv_empty. Qed.
Lemma reachable_step w o : reachable w -> valid_op w o -> reachable (step w o).
Proof.
  intros (l & V & ->) VO. exists (l ++ [o]). unfold run. rewrite fold_left_app. split; auto.
  fold (run empty_world l) in *. revert V VO. unfold run. generalize empty_world. induction l as [| x l IH]; intros w V VO; cbn in *; [auto |].
  destruct V. split; auto.
Qed.
End Heap.
