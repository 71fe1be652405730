(** What each operation does to transactions and keys. *)
From Verif.Model Require Import Base Cbor Address Tx Builder.
From Verif.Spec Require Import CborSpec TxSpec MdSpec.
From Verif.Proofs Require Import Util HeapFacts TxFacts.

Section Heap.
Context {C : TxCrypto} {MO : MapOrder}.

(** ** Effect on a transaction held by handle u *)
Lemma load_put_body w i b u : Inv w -> (u < ntxs w)%nat ->
  load (put_body w i b) u = if Nat.eq_dec (o_body (obj w u)) i then with_body (load w u) b else load w u.
Proof.
  intros I Hu. destruct (inv_txs w I u Hu) as [K _]. unfold load, obj in *. cbn. destruct (Nat.eq_dec _ i) as [<- | N].
  - rewrite nth_upd_same by auto. reflexivity.
  - rewrite nth_upd_other by auto. reflexivity.
Qed.
Lemma load_put_wit w i x u : Inv w -> (u < ntxs w)%nat ->
  load (put_wit w i x) u = if Nat.eq_dec (o_wit (obj w u)) i then with_witness (load w u) x else load w u.
Proof.
  intros I Hu. destruct (inv_txs w I u Hu) as [_ K]. unfold load, obj in *. cbn. destruct (Nat.eq_dec _ i) as [<- | N].
  - rewrite nth_upd_same by auto. reflexivity.
  - rewrite nth_upd_other by auto. reflexivity.
Qed.
Lemma load_tick w n u : load (tick w n) u = load w u.
Proof. reflexivity. Qed.
Lemma obj_put_body w i b u : obj (put_body w i b) u = obj w u.
Proof. reflexivity. Qed.
Lemma load_new_tx w o u : (u < ntxs w)%nat -> load (new_tx w o) u = load w u.
Proof. intros H. unfold load, obj, ntxs in *. cbn. rewrite nth_app_l by auto. reflexivity. Qed.

Lemma same_body_owner w t u : Inv w -> (t < ntxs w)%nat -> (u < ntxs w)%nat -> o_body (obj w u) <> o_body (obj w t) -> o_wit (obj w u) <> o_wit (obj w t).
Proof. intros I Ht Hu N E. apply N. apply (inv_wits w I); auto. Qed.

(** ** Build *)
Lemma tx_hash_body n t h : snd (tx_hash n t) = Ok h -> exists s, body_marshal (fst (tx_hash n t)) = Ok s /\ h = blake2b256 s.
Proof.
  unfold tx_hash, after_aux. destruct (calc_aux n t) as [b | |]; try discriminate. cbn [fst snd Body with_body].
  destruct (body_marshal b) as [s | |]; try discriminate. cbn [bind]. intros H. exists s. split; congruence.
Qed.

Lemma build_loads w b w' t' : Inv w -> (b < nbuilders w)%nat -> build w b = (w', Ok t') ->
  exists h ws, snd (tx_hash (w_clock w) (builder_tx w b)) = Ok h /\ sign_all (builder_keys w b) h = Ok ws /\
    load w' t' = {| Body := fst (tx_hash (w_clock w) (builder_tx w b)); Witness := ws; Valid := Valid (builder_tx w b); Metadata := Metadata (builder_tx w b) |} /\
    builder_tx w' b = load w' t' /\ builder_keys w' b = builder_keys w b /\ t' = ntxs w /\ ntxs w' = S (ntxs w) /\
    obj w' t' = obj w' (b_tx (bld w' b)) /\ o_body (obj w' t') = b /\ bld w' b = bld w b.
Proof.
  intros I Hb E. destruct (inv_builders w I b Hb) as (K1 & K2 & _).
  apply build_eq in E as (h & ws & E1 & E2 & E3 & ->). exists h, ws. rewrite run_hash_eq in E3. cbn [fst] in E3. cbv zeta in E3.
  set (t := b_tx (bld w b)) in *. set (o := obj w t) in *.
  set (o' := {| o_body := o_body o; o_wit := length (w_wits w); o_valid := o_valid o; o_meta := o_meta o |}) in *.
  assert (Etx : w_txs w' = upd (w_txs w) t o' ++ [o']) by (rewrite E3; reflexivity).
  assert (Ew : w_wits w' = w_wits w ++ [ws]) by (rewrite E3; reflexivity).
  assert (Ebd : w_bodies w' = upd (w_bodies w) (o_body o) (fst (tx_hash (w_clock w) (load w t)))) by (rewrite E3; reflexivity).
  assert (Ebl : w_builders w' = w_builders w) by (rewrite E3; reflexivity).
  assert (Ea : w_arrays w' = w_arrays w) by (rewrite E3; reflexivity).
  assert (O1 : obj w' (length (w_txs w)) = o').
  { unfold obj. rewrite Etx. rewrite <- (upd_length (w_txs w) t o') at 1. apply nth_app_last. }
  assert (B1 : bld w' b = bld w b) by (unfold bld; rewrite Ebl; reflexivity).
  assert (O2 : obj w' t = o').
  { unfold obj. rewrite Etx, nth_app_l by (rewrite upd_length; auto). apply nth_upd_same. auto. }
  assert (L : load w' (length (w_txs w)) = {| Body := fst (tx_hash (w_clock w) (builder_tx w b)); Witness := ws; Valid := Valid (builder_tx w b); Metadata := Metadata (builder_tx w b) |}).
  { unfold load. rewrite O1, Ew, Ebd. cbn [o' o_body o_wit o_valid o_meta]. rewrite nth_app_last, nth_upd_same by (apply (inv_txs w I); auto). reflexivity. }
  split; [auto |]. split; [auto |]. split; [auto |]. split.
  { unfold builder_tx. rewrite B1. fold t. unfold load. rewrite O1, O2. reflexivity. }
  split; [unfold builder_keys; rewrite B1; unfold slice_keys; rewrite Ea; reflexivity |]. split; [reflexivity |].
  split; [unfold ntxs; rewrite Etx, app_length, upd_length; cbn; lia |]. rewrite B1. fold t. split; [rewrite O1, O2; reflexivity |]. split; [rewrite O1; exact K2 | reflexivity].
Qed.

Lemma sign_all_forall2 keys h : forall ws, sign_all keys h = Ok ws ->
  Forall2 (fun k w => key_public k = Ok (VKey w) /\ key_sign k h = Ok (Signature w)) keys ws.
Proof.
  induction keys as [| k keys IH]; intros ws H; cbn [sign_all] in H; [injection H as <-; constructor |].
  apply bind_ok in H as (pk & H1 & H). apply bind_ok in H as (sg & H2 & H). apply bind_ok in H as (l & H3 & H). injection H as <-.
  constructor; auto.
Qed.

(** The hash can be recomputed from the returned transaction when map order cannot show. *)
Lemma calc_aux_free n m t b : runtime_order -> meta_free (Metadata t) -> calc_aux n t = Ok b -> calc_aux m (with_body t b) = Ok b /\ calc_aux m t = Ok b.
Proof.
  intros RO F. unfold calc_aux. destruct (Metadata t) as [x |] eqn:E; cbn [Metadata with_body Body]; rewrite E; [| auto].
  cbn [meta_free] in F. rewrite !(order_free_perm x F _ (RO _ x)). destruct (enc_md x); try discriminate. cbn [bind]. intros H. injection H as <-. auto.
Qed.
Lemma tx_hash_free n m t h : runtime_order -> meta_free (Metadata t) -> snd (tx_hash n t) = Ok h ->
  tx_hash m (with_body t (fst (tx_hash n t))) = tx_hash n t /\ tx_hash m t = tx_hash n t.
Proof.
  intros RO F. unfold tx_hash, after_aux. destruct (calc_aux n t) as [b | |] eqn:E; try discriminate. cbn [fst snd]. intros _.
  destruct (calc_aux_free n m t b RO F E) as [-> ->]. auto.
Qed.
Lemma tx_hash_meta n t u : Body u = Body t -> Metadata u = Metadata t -> tx_hash n u = tx_hash n t.
Proof.
  intros Eb Em. unfold tx_hash, after_aux, calc_aux. rewrite Eb, Em. destruct (Metadata t) as [x |]; [| unfold with_body; rewrite ?Eb; auto].
  destruct (enc_md _); auto.
Qed.

Lemma rebuild w b w1 t1 w2 t2 : runtime_order -> Inv w -> (b < nbuilders w)%nat -> meta_free (Metadata (builder_tx w b)) ->
  build w b = (w1, Ok t1) -> build w1 b = (w2, Ok t2) -> load w2 t2 = load w1 t1.
Proof.
  intros RO I Hb F E1 E2. pose proof (inv_build _ _ _ _ I Hb E1) as I1.
  destruct (build_loads _ _ _ _ I Hb E1) as (h & ws & H1 & S1 & L1 & B1 & K1 & _ & _ & _ & _ & Bl1).
  assert (Hb1 : (b < nbuilders w1)%nat).
  { unfold nbuilders. pose proof (build_eq _ _ _ _ E1) as (? & ? & _ & _ & E & _). rewrite run_hash_eq in E. rewrite E. exact Hb. }
  destruct (build_loads _ _ _ _ I1 Hb1 E2) as (h2 & ws2 & H2 & S2 & L2 & B2 & K2 & _).
  assert (Q : tx_hash (w_clock w1) (builder_tx w1 b) = tx_hash (w_clock w) (builder_tx w b)).
  { rewrite B1, L1. destruct (tx_hash_free (w_clock w) (w_clock w1) (builder_tx w b) h RO F H1) as [Q _]. etransitivity; [| exact Q]. apply tx_hash_meta; reflexivity. }
  rewrite Q in *. rewrite K1 in S2. rewrite H1 in H2. injection H2 as <-. rewrite S1 in S2. injection S2 as <-.
  rewrite L2, L1, B1, L1. cbn. reflexivity.
Qed.

(** ** What happens to a body: body i belongs to builder i *)
Definition body_of (w : World) (i : nat) : TxBody := nth i (w_bodies w) NewTxBody.

Lemma body_put w i b j : body_of (put_body w i b) j = if (Nat.eqb j i && (Nat.ltb j (length (w_bodies w))))%bool then b else body_of w j.
Proof.
  unfold body_of. cbn [w_bodies put_body]. destruct (Nat.eqb_spec j i) as [-> | N]; cbn [andb].
  - destruct (Nat.ltb_spec i (length (w_bodies w))); [apply nth_upd_same; auto |].
    rewrite !nth_overflow by (rewrite ?upd_length; lia). reflexivity.
  - apply nth_upd_other; auto.
Qed.
Lemma load_body w t : Body (load w t) = body_of w (o_body (obj w t)).
Proof. reflexivity. Qed.

(** Everything but the auxiliary data hash. *)
Definition core (b : TxBody) := (Inputs b, Outputs b, Fee b, TTL b).
Lemma after_aux_core {A} n t (k : Tx -> result A) : core (fst (after_aux n t k)) = core (Body t).
Proof. unfold after_aux, calc_aux. destruct (Metadata t) as [m |]; auto. destruct (enc_md _); reflexivity. Qed.
Lemma tx_hash_core n t : core (fst (tx_hash n t)) = core (Body t).
Proof. apply after_aux_core. Qed.
Lemma tx_bytes_core n t : core (fst (tx_bytes n t)) = core (Body t).
Proof. apply after_aux_core. Qed.
Lemma tx_fee_core n l t : core (fst (tx_fee n l t)) = core (Body t).
Proof. apply after_aux_core. Qed.

Lemma core_split a i o f x : core a = (i, o, f, x) <-> Inputs a = i /\ Outputs a = o /\ Fee a = f /\ TTL a = x.
Proof. unfold core. split; [intros H; injection H; auto | intros (-> & -> & -> & ->); auto]. Qed.

Lemma core_put_same w i b j : core b = core (body_of w i) -> core (body_of (put_body w i b) j) = core (body_of w j).
Proof. intros H. rewrite body_put. destruct (Nat.eqb_spec j i) as [-> | N]; cbn [andb]; auto. destruct (_ <? _)%nat; auto. Qed.

Lemma core_step w o i : Inv w -> valid_op w o ->
  core (body_of (step w o) i) =
  (Inputs (body_of w i) ++ added_inputs w o i, Outputs (body_of w i) ++ added_outputs w o i, new_fee w o i (Fee (body_of w i)), new_ttl w o i (TTL (body_of w i))).
Proof.
  intros I V.
  assert (R : forall w', core (body_of w' i) = core (body_of w i) ->
    core (body_of w' i) = (Inputs (body_of w i) ++ [], Outputs (body_of w i) ++ [], Fee (body_of w i), TTL (body_of w i)))
    by (intros w' ->; rewrite !app_nil_r; reflexivity).
  assert (BT : forall b, (b < nbuilders w)%nat -> o_body (obj w (b_tx (bld w b))) = b /\ (b < length (w_bodies w))%nat).
  { intros b Hb. destruct (inv_builders w I b Hb) as (_ & -> & _). rewrite (inv_bodies w I). auto. }
  destruct o; cbn [step valid_op added_inputs added_outputs new_fee new_ttl] in *.
  - apply R. reflexivity.
  - apply R. unfold new_tx_builder, body_of. cbn. destruct (Nat.ltb_spec i (length (w_bodies w))) as [L | L].
    + rewrite nth_app_l by auto. reflexivity.
    + rewrite (nth_overflow (w_bodies w)) by auto. destruct (Nat.eq_dec i (length (w_bodies w))) as [-> | N].
      * rewrite nth_app_last. reflexivity.
      * rewrite nth_overflow by (rewrite app_length; cbn; lia). reflexivity.
  - apply R. unfold sign_with. destruct (_ <? _)%nat; reflexivity.
  - destruct (inv_txs w I t V) as [K _]. unfold add_tx_inputs. rewrite body_put. destruct (Nat.eqb_spec i (o_body (obj w t))) as [-> | N]; cbn [andb]; [| rewrite !app_nil_r; reflexivity].
    replace (_ <? _)%nat with true by (symmetry; apply Nat.ltb_lt; auto). rewrite load_body. cbn. rewrite app_nil_r. reflexivity.
  - destruct (inv_txs w I t V) as [K _]. unfold add_tx_outputs. rewrite body_put. destruct (Nat.eqb_spec i (o_body (obj w t))) as [-> | N]; cbn [andb]; [| rewrite !app_nil_r; reflexivity].
    replace (_ <? _)%nat with true by (symmetry; apply Nat.ltb_lt; auto). rewrite load_body. cbn. rewrite app_nil_r. reflexivity.
  - destruct (inv_txs w I t V) as [K _]. unfold set_tx_fee. rewrite body_put. destruct (Nat.eqb_spec i (o_body (obj w t))) as [-> | N]; cbn [andb]; [| rewrite !app_nil_r; reflexivity].
    replace (_ <? _)%nat with true by (symmetry; apply Nat.ltb_lt; auto). rewrite load_body. cbn. rewrite !app_nil_r. reflexivity.
  - destruct (BT b V) as [EB LB]. unfold set_builder_ttl. rewrite body_put, load_body, EB. destruct (Nat.eqb_spec i b) as [-> | N]; cbn [andb]; [| rewrite !app_nil_r; reflexivity].
    replace (_ <? _)%nat with true by (symmetry; apply Nat.ltb_lt; auto). cbn. rewrite !app_nil_r. reflexivity.
  - apply R. reflexivity.
  - apply R. rewrite run_bytes_eq. apply (core_put_same w). apply tx_bytes_core.
  - apply R. rewrite run_hash_eq. apply (core_put_same w). apply tx_hash_core.
  - apply R. rewrite run_fee_eq. apply (core_put_same w). apply tx_fee_core.
  - apply R. rewrite run_min_fee_eq. reflexivity.
  - destruct (BT b V) as [EB LB]. rewrite add_change_eq, body_put. rewrite EB. destruct (Nat.eqb_spec i b) as [-> | N]; cbn [andb]; [| rewrite !app_nil_r; reflexivity].
    replace (_ <? _)%nat with true by (symmetry; apply Nat.ltb_lt; auto). unfold builder_tx. rewrite load_body, EB. unfold add_change. rewrite change_amount_sum.
    unfold change_output, builder_tx. cbn zeta. rewrite load_body, EB. rewrite !app_nil_r. reflexivity.
  - apply R. destruct (build w b) as [w' r] eqn:E. cbn [fst].
    assert (G : core (body_of (fst (run_hash w (b_tx (bld w b)))) i) = core (body_of w i)) by (rewrite run_hash_eq; apply (core_put_same w); apply tx_hash_core).
    destruct r as [t' | e |].
    + apply build_eq in E as (h & ws & _ & _ & -> & _). exact G.
    + rewrite (build_fail _ _ _ _ E) by discriminate. exact G.
    + rewrite (build_fail _ _ _ _ E) by discriminate. exact G.
Qed.

(** ** Isolation *)
Lemma with_id t : with_body t (Body t) = t.
Proof. destruct t; reflexivity. Qed.

Lemma load_isolated w o u : Inv w -> valid_op w o -> (u < ntxs w)%nat -> owner w o <> Some (o_body (obj w u)) ->
  load (step w o) u = load w u /\ obj (step w o) u = obj w u.
Proof.
  intros I V Hu N. destruct o; cbn [step valid_op owner] in *.
  - split; reflexivity.
  - destruct (inv_txs w I u Hu) as [K1 K2]. unfold new_tx_builder, load, obj in *. cbn. rewrite (nth_app_l (w_txs w)) by auto. rewrite !nth_app_l by auto. auto.
  - unfold sign_with. destruct (_ <? _)%nat; split; reflexivity.
  - unfold add_tx_inputs. rewrite load_put_body by auto. destruct (Nat.eq_dec _ _); [congruence | split; reflexivity].
  - unfold add_tx_outputs. rewrite load_put_body by auto. destruct (Nat.eq_dec _ _); [congruence | split; reflexivity].
  - unfold set_tx_fee. rewrite load_put_body by auto. destruct (Nat.eq_dec _ _); [congruence | split; reflexivity].
  - destruct (inv_builders w I b V) as (_ & EB & _). unfold set_builder_ttl. rewrite load_put_body by auto. destruct (Nat.eq_dec _ _); [congruence | split; reflexivity].
  - assert (u <> t) by congruence. unfold set_metadata, load, obj. cbn. rewrite nth_upd_other by auto. auto.
  - rewrite run_bytes_eq. rewrite load_tick, load_put_body by auto. destruct (Nat.eq_dec _ _); [congruence | split; reflexivity].
  - rewrite run_hash_eq. cbn [fst]. rewrite load_tick, load_put_body by auto. destruct (Nat.eq_dec _ _); [congruence | split; reflexivity].
  - rewrite run_fee_eq. rewrite load_tick, load_put_body by auto. destruct (Nat.eq_dec _ _); [congruence | split; reflexivity].
  - destruct (inv_builders w I b V) as (K & EB & _). rewrite run_min_fee_eq. cbn [fst]. rewrite load_tick, load_put_wit by auto.
    destruct (Nat.eq_dec _ _) as [E |]; [exfalso | split; reflexivity]. apply (inv_wits w I) in E; auto. congruence.
  - destruct (inv_builders w I b V) as (K & EB & _). rewrite add_change_eq.
    rewrite load_put_body by (try apply inv_tick, inv_put_wit; auto). cbn [tick put_wit]. unfold obj at 1. cbn. fold (obj w u).
    destruct (Nat.eq_dec _ _) as [E |]; [congruence |]. split; [| reflexivity].
    change (load (put_wit w (o_wit (obj w (b_tx (bld w b)))) (mf_wit w b)) u = load w u). rewrite load_put_wit by auto.
    destruct (Nat.eq_dec (o_wit (obj w u)) _) as [E |]; [exfalso | reflexivity]. apply (inv_wits w I) in E; auto.
  - destruct (inv_builders w I b V) as (K & EB & _).
    assert (Nb : o_body (obj w u) <> b) by congruence.
    assert (G : load (fst (run_hash w (b_tx (bld w b)))) u = load w u).
    { rewrite run_hash_eq. cbn [fst]. rewrite load_tick, load_put_body by auto. destruct (Nat.eq_dec _ _); [congruence | reflexivity]. }
    destruct (build w b) as [w' r] eqn:E. cbn [fst].
    destruct r as [t' | e |].
    + apply build_eq in E as (h & ws & _ & _ & -> & _).
      assert (Nu : u <> b_tx (bld w b)) by congruence.
      rewrite load_new_tx by (unfold ntxs; cbn; rewrite upd_length; rewrite run_hash_eq; exact Hu).
      split.
      * assert (Hw : (o_wit (obj w u) < length (w_wits w))%nat) by (apply (inv_txs w I); auto).
        etransitivity; [| exact G]. rewrite run_hash_eq. cbn [fst]. set (bd := fst (tx_hash _ _)). unfold load, obj in *.
        cbn [w_txs w_wits w_bodies put_tx new_wit tick put_body]. rewrite (nth_upd_other (w_txs w)) by auto. rewrite nth_app_l by auto. reflexivity.
      * rewrite run_hash_eq. cbn [fst]. unfold obj. cbn. rewrite nth_app_l by (rewrite upd_length; exact Hu). apply nth_upd_other; auto.
    + rewrite (build_fail _ _ _ _ E) by discriminate. split; [exact G | rewrite run_hash_eq; reflexivity].
    + rewrite (build_fail _ _ _ _ E) by discriminate. split; [exact G | rewrite run_hash_eq; reflexivity].
Qed.

(** ** Keys *)
Lemma bld_step w o b : Inv w -> valid_op w o -> (b < nbuilders w)%nat -> (forall k, o <> OSign b k) -> bld (step w o) b = bld w b.
Proof.
  intros I V Hb N. destruct o; cbn [step] in *; try reflexivity.
  - unfold new_tx_builder, bld. cbn. rewrite nth_app_l by auto. reflexivity.
  - unfold sign_with. assert (b <> b0) by congruence. destruct (_ <? _)%nat; unfold bld; cbn; rewrite nth_upd_other by auto; reflexivity.
  - rewrite run_bytes_eq. reflexivity.
  - rewrite run_hash_eq. reflexivity.
  - rewrite run_fee_eq. reflexivity.
  - rewrite run_min_fee_eq. reflexivity.
  - rewrite add_change_eq. reflexivity.
  - destruct (build w b0) as [w' r] eqn:E. cbn [fst]. destruct r as [t' | e |].
    + apply build_eq in E as (h & ws & _ & _ & -> & _). rewrite run_hash_eq. reflexivity.
    + rewrite (build_fail _ _ _ _ E) by discriminate. rewrite run_hash_eq. reflexivity.
    + rewrite (build_fail _ _ _ _ E) by discriminate. rewrite run_hash_eq. reflexivity.
Qed.

Lemma arrays_step w o : (forall b k, o <> OSign b k) -> exists l, w_arrays (step w o) = w_arrays w ++ l.
Proof.
  intros N. destruct o; cbn [step] in *; try (exists []; cbn; rewrite app_nil_r; reflexivity).
  - eexists. reflexivity.
  - destruct (N b key). reflexivity.
  - exists []. rewrite run_bytes_eq, app_nil_r. reflexivity.
  - exists []. rewrite run_hash_eq, app_nil_r. reflexivity.
  - exists []. rewrite run_fee_eq, app_nil_r. reflexivity.
  - exists []. rewrite run_min_fee_eq, app_nil_r. reflexivity.
  - exists []. rewrite add_change_eq, app_nil_r. reflexivity.
  - exists []. rewrite app_nil_r. destruct (build w b) as [w' r] eqn:E. cbn [fst]. destruct r as [t' | e |].
    + apply build_eq in E as (h & ws & _ & _ & -> & _). rewrite run_hash_eq. reflexivity.
    + rewrite (build_fail _ _ _ _ E) by discriminate. rewrite run_hash_eq. reflexivity.
    + rewrite (build_fail _ _ _ _ E) by discriminate. rewrite run_hash_eq. reflexivity.
Qed.

Lemma keys_other w o b : Inv w -> valid_op w o -> (b < nbuilders w)%nat -> (forall b k, o <> OSign b k) -> builder_keys (step w o) b = builder_keys w b.
Proof.
  intros I V Hb N. unfold builder_keys. rewrite bld_step by auto. unfold slice_keys. destruct (arrays_step w o N) as (l & ->).
  destruct (inv_builders w I b Hb) as (_ & _ & [K _]). rewrite nth_app_l by auto. reflexivity.
Qed.

Lemma slice_append (arr : list bytes) off len k : (off + len < length arr)%nat ->
  firstn (S len) (skipn off (upd arr (off + len) k)) = firstn len (skipn off arr) ++ [k].
Proof.
  revert arr. induction off as [| off IH]; intros arr H.
  - cbn [skipn Nat.add] in *. revert arr H. induction len as [| len IH]; intros [| x arr] H; cbn in *; try lia; auto. f_equal. apply IH. lia.
  - destruct arr as [| x arr]; cbn in *; [lia |]. apply IH. lia.
Qed.
Lemma slice_keep (arr : list bytes) off len i k : (off + len <= i)%nat -> firstn len (skipn off (upd arr i k)) = firstn len (skipn off arr).
Proof.
  revert arr i. induction off as [| off IH]; intros arr i H.
  - cbn [skipn Nat.add] in *. revert arr i H. induction len as [| len IH]; intros [| x arr] [| i] H; cbn in *; try lia; auto. f_equal. apply IH. lia.
  - destruct arr as [| x arr], i as [| i]; cbn in *; try lia; auto. apply IH. lia.
Qed.

Lemma keys_sign w b k : Inv w -> (b < nbuilders w)%nat -> builder_keys (sign_with w b k) b = builder_keys w b ++ [k].
Proof.
  intros I Hb. destruct (inv_builders w I b Hb) as (_ & _ & [K1 K2]). unfold sign_with, builder_keys.
  set (s := b_keys (bld w b)) in *. destruct (Nat.ltb_spec (s_off s + s_len s) (length (nth (s_arr s) (w_arrays w) []))) as [L | L].
  - unfold bld. cbn. rewrite nth_upd_same by auto. unfold slice_keys. cbn [b_keys s_arr s_off s_len w_arrays put_builder put_array].
    rewrite nth_upd_same by auto. apply slice_append. auto.
  - unfold bld. cbn. rewrite nth_upd_same by auto. unfold slice_keys at 1. cbn [b_keys s_arr s_off s_len w_arrays put_builder new_array].
    rewrite nth_app_last. cbn [skipn]. set (l := slice_keys w s). rewrite <- Nat.add_1_r.
    change (l ++ k :: repeat [] (length l)) with (l ++ [k] ++ repeat [] (length l)). rewrite app_assoc.
    replace (length l + 1)%nat with (length (l ++ [k])) by (rewrite app_length; reflexivity). rewrite firstn_app, Nat.sub_diag, firstn_all. cbn [firstn]. rewrite app_nil_r. reflexivity.
Qed.

(** Another builder's keys survive a Sign unless the new key lands inside its slice of the same array. *)
Lemma keys_sign_other w b b' k : Inv w -> (b < nbuilders w)%nat -> (b' < nbuilders w)%nat -> b <> b' ->
  s_arr (b_keys (bld w b)) <> s_arr (b_keys (bld w b')) -> builder_keys (sign_with w b k) b' = builder_keys w b'.
Proof.
  intros I Hb Hb' N A. destruct (inv_builders w I b Hb) as (_ & _ & [K1 K2]). destruct (inv_builders w I b' Hb') as (_ & _ & [J1 J2]).
  unfold sign_with, builder_keys, slice_keys. set (s := b_keys (bld w b)) in *. set (s' := b_keys (bld w b')) in *.
  destruct (_ <? _)%nat; unfold bld; cbn; rewrite nth_upd_other by auto; fold (bld w b'); fold s'.
  - rewrite nth_upd_other by auto. reflexivity.
  - rewrite nth_app_l by auto. reflexivity.
Qed.

(** No two builders hold slices of one array. *)
Lemma nbuilders_step w o : nbuilders (step w o) = match o with ONewBuilder _ _ => S (nbuilders w) | _ => nbuilders w end.
Proof.
  unfold nbuilders. destruct o; cbn [step]; try reflexivity.
  - unfold new_tx_builder. cbn. rewrite app_length. cbn. lia.
  - unfold sign_with. destruct (_ <? _)%nat; cbn; rewrite upd_length; reflexivity.
  - rewrite run_bytes_eq. reflexivity.
  - rewrite run_hash_eq. reflexivity.
  - rewrite run_fee_eq. reflexivity.
  - rewrite run_min_fee_eq. reflexivity.
  - rewrite add_change_eq. reflexivity.
  - destruct (build w b) as [w' r] eqn:E. cbn [fst]. destruct r as [t' | e |].
    + apply build_eq in E as (h & ws & _ & _ & -> & _). rewrite run_hash_eq. reflexivity.
    + rewrite (build_fail _ _ _ _ E) by discriminate. rewrite run_hash_eq. reflexivity.
    + rewrite (build_fail _ _ _ _ E) by discriminate. rewrite run_hash_eq. reflexivity.
Qed.

Lemma unshared_step w o : Inv w -> valid_op w o -> fresh_slice w o -> unshared w -> unshared (step w o).
Proof.
  intros I V F U. destruct (match o with OSign _ _ => true | _ => false end) eqn:ES.
  - destruct o; try discriminate. cbn [valid_op] in *. intros x y. rewrite !nbuilders_step. intros Hx Hy N. cbn [step].
    unfold sign_with. set (s := b_keys (bld w b)).
    assert (G : forall z, (z < nbuilders w)%nat -> z <> b -> forall bo w1, w_builders w1 = w_builders w -> bld (put_builder w1 b bo) z = bld w z).
    { intros z Hz Nz bo w1 E. unfold bld. cbn. rewrite nth_upd_other, E by auto. reflexivity. }
    assert (G2 : forall bo w1, w_builders w1 = w_builders w -> bld (put_builder w1 b bo) b = bo).
    { intros bo w1 E. unfold bld. cbn. rewrite nth_upd_same; [reflexivity |]. rewrite E. exact V. }
    assert (R : forall z, (z < nbuilders w)%nat -> (s_arr (b_keys (bld w z)) < length (w_arrays w))%nat) by (intros z Hz; apply (inv_builders w I z Hz)).
    destruct (_ <? _)%nat; destruct (Nat.eq_dec x b) as [-> | Nx], (Nat.eq_dec y b) as [-> | Ny]; try congruence; rewrite ?G2, ?(G x), ?(G y) by auto; cbn [b_keys s_arr]; auto.
    + apply U; auto.
    + apply U; auto.
    + specialize (R y Hy). lia.
    + specialize (R x Hx). lia.
  - assert (NS : forall b k, o <> OSign b k) by (intros b k ->; discriminate).
    destruct (match o with ONewBuilder _ _ => true | _ => false end) eqn:EN.
    + destruct o; try discriminate. cbn [fresh_slice] in *. intros x y. rewrite !nbuilders_step. intros Hx Hy N. cbn [step].
      assert (L : forall z, (z < nbuilders w)%nat -> bld (new_tx_builder w fees keys) z = bld w z).
      { intros z Hz. unfold bld, new_tx_builder. cbn. rewrite nth_app_l by auto. reflexivity. }
      assert (E : b_keys (bld (new_tx_builder w fees keys) (nbuilders w)) = keys).
      { unfold bld, new_tx_builder. cbn. unfold nbuilders. rewrite nth_app_last. reflexivity. }
      destruct (Nat.eq_dec x (nbuilders w)) as [-> | Nx], (Nat.eq_dec y (nbuilders w)) as [-> | Ny]; try congruence.
      * rewrite E, L by lia. intros Q. symmetry in Q. revert Q. apply F. lia.
      * rewrite E, L by lia. apply F. lia.
      * rewrite !L by lia. apply U; lia.
    + intros x y. rewrite !nbuilders_step. assert (EQ : match o with ONewBuilder _ _ => S (nbuilders w) | _ => nbuilders w end = nbuilders w) by (destruct o; try discriminate; auto).
      rewrite EQ. intros Hx Hy N. rewrite !bld_step by auto. apply U; auto.
Qed.

Lemma keys_step w o b : Inv w -> valid_op w o -> unshared w -> (b < nbuilders w)%nat -> builder_keys (step w o) b = builder_keys w b ++ signed o b.
Proof.
  intros I V U Hb. destruct (match o with OSign _ _ => true | _ => false end) eqn:ES.
  - destruct o; try discriminate. cbn [step valid_op signed] in *. destruct (Nat.eqb_spec b b0) as [-> | N].
    + apply keys_sign; auto.
    + rewrite app_nil_r. apply keys_sign_other; auto.
  - rewrite keys_other; auto; [| intros ? ? ->; discriminate]. destruct o; try discriminate; cbn [signed]; rewrite app_nil_r; reflexivity.
Qed.
End Heap.
