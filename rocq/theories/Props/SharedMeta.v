(** C100: metadata that the caller changes after they were assigned, or after the transaction was built. *)
From Verif.Model Require Import Base Cbor Network Address Tx Builder SharedMeta.
From Verif.Spec Require Import CborSpec TxSpec MdSpec Values World.
From Verif.Proofs Require Import Util HeapFacts HeapProps TxFacts AuxFacts.
From Verif.Props Require Import Tx Builder.

Section Facts.
Context {C : TxCrypto} {MO : MapOrder}.
Lemma obj_set w t m u : (t < ntxs w)%nat ->
  obj (set_metadata w t m) u = if (u =? t)%nat then {| o_body := o_body (obj w t); o_wit := o_wit (obj w t); o_valid := o_valid (obj w t); o_meta := m |} else obj w u.
Proof. intros Ht. unfold set_metadata, obj at 1. cbn. destruct (Nat.eqb_spec u t) as [-> | N]; [apply nth_upd_same; exact Ht | apply nth_upd_other; exact N]. Qed.
Lemma ntxs_set w t m : ntxs (set_metadata w t m) = ntxs w. Proof. unfold ntxs, set_metadata. cbn. apply upd_length. Qed.
Lemma load_set w t m u : (t < ntxs w)%nat ->
  load (set_metadata w t m) u = if (u =? t)%nat then {| Body := Body (load w t); Witness := Witness (load w t); Valid := Valid (load w t); Metadata := m |} else load w u.
Proof. intros Ht. unfold load at 1. rewrite obj_set by exact Ht. destruct (Nat.eqb_spec u t) as [-> | N]; reflexivity. Qed.

Lemma show_facts l m : forall w, Forall (fun t => t < ntxs w)%nat l ->
  ntxs (show w l m) = ntxs w /\ (reachable w -> reachable (show w l m)) /\
  (forall u, load (show w l m) u = if existsb (Nat.eqb u) l then {| Body := Body (load w u); Witness := Witness (load w u); Valid := Valid (load w u); Metadata := Some m |} else load w u) /\
  w_builders (show w l m) = w_builders w /\ w_clock (show w l m) = w_clock w /\ w_arrays (show w l m) = w_arrays w.
Proof.
  induction l as [| t l IH]; intros w F; [repeat split; auto |]. inversion F as [| ? ? F1 F2]; subst. unfold show. cbn [fold_left]. fold (show (set_metadata w t (Some m)) l m).
  destruct (IH (set_metadata w t (Some m))) as (A & B & D & E & G & K). { eapply Forall_impl; [| exact F2]. cbn beta. intros x X. rewrite ntxs_set. exact X. }
  split; [rewrite A; apply ntxs_set |]. split; [intros R; apply B; exact (reachable_step w (OSetMetadata t (Some m)) R F1) |]. split; [| repeat split; [rewrite E | rewrite G | rewrite K]; reflexivity].
  intros u. rewrite D. cbn [existsb]. rewrite load_set by exact F1. destruct (Nat.eqb_spec u t) as [-> | N]; cbn [orb]; [destruct (existsb (Nat.eqb t) l); reflexivity | reflexivity].
Qed.

(** The Metadata of every transaction is the present content of its map. *)
Definition synced (mw : MWorld) : Prop :=
  length (m_refs mw) = ntxs (m_world mw) /\
  (forall t, (t < ntxs (m_world mw))%nat -> Metadata (load (m_world mw) t) = match ref_of mw t with Some r => nth_error (m_maps mw) r | None => None end) /\
  Forall (fun x => match x with Some r => (r < length (m_maps mw))%nat | None => True end) (m_refs mw).

Lemma holders_lt mw r : length (m_refs mw) = ntxs (m_world mw) -> Forall (fun t => t < ntxs (m_world mw))%nat (holders mw r).
Proof. intros E. apply Forall_forall. intros t I. apply filter_In in I. destruct I as [I _]. apply in_seq in I. lia. Qed.
Lemma holders_in mw r t : (t < length (m_refs mw))%nat -> existsb (Nat.eqb t) (holders mw r) = holds mw r t.
Proof.
  intros L. apply Bool.eq_true_iff_eq. rewrite existsb_exists. unfold holders. split.
  - intros (x & I & E). apply Nat.eqb_eq in E. subst x. apply filter_In in I. apply I.
  - intros E. exists t. split; [| apply Nat.eqb_refl]. apply filter_In. split; [apply in_seq; lia | exact E].
Qed.
Lemma holds_iff mw r t : holds mw r t = true <-> ref_of mw t = Some r.
Proof. unfold holds. destruct (ref_of mw t) as [s |]; [| split; discriminate]. rewrite Nat.eqb_eq. split; [intros ->; reflexivity | intros E; injection E; auto]. Qed.

Lemma nth_error_upd {A} (l : list A) i x j : (i < length l)%nat -> nth_error (upd l i x) j = if (j =? i)%nat then Some x else nth_error l j.
Proof. revert i j. induction l as [| y l IH]; intros [| i] [| j] L; cbn in *; try lia; try reflexivity. apply IH. lia. Qed.
Lemma meta_step w o t : Inv w -> valid_op w o -> match o with OSetMetadata _ _ => False | _ => True end -> (t < ntxs w)%nat -> o_meta (obj (step w o) t) = o_meta (obj w t).
Proof.
  intros I V P Ht. unfold ntxs in Ht. destruct o; try destruct P; cbn [step]; try reflexivity.
  - unfold new_tx_builder, obj. cbn. rewrite nth_app_l by exact Ht. reflexivity.
  - unfold sign_with. destruct (_ <? _)%nat; reflexivity.
  - rewrite run_bytes_eq. reflexivity.
  - rewrite run_hash_eq. reflexivity.
  - rewrite run_fee_eq. reflexivity.
  - rewrite run_min_fee_eq. reflexivity.
  - unfold add_change_if_needed. rewrite run_min_fee_eq. reflexivity.
  - destruct (build w b) as [w' r] eqn:E. cbn [fst]. destruct r as [t' | |].
    + destruct (inv_builders w I b V) as (K1 & _ & _). apply build_eq in E as (h & ws & _ & _ & E3 & _). rewrite run_hash_eq in E3. cbn [fst] in E3. cbv zeta in E3.
      rewrite E3. unfold obj at 1. cbn. rewrite nth_app_l by (rewrite upd_length; exact Ht). destruct (Nat.eq_dec t (b_tx (bld w b))) as [-> | N]; [rewrite nth_upd_same by exact K1; reflexivity | rewrite nth_upd_other by exact N; reflexivity].
    + apply build_fail in E; [| discriminate]. rewrite E, run_hash_eq. reflexivity.
    + apply build_fail in E; [| discriminate]. rewrite E, run_hash_eq. reflexivity.
Qed.
Lemma ntxs_call mw o : Inv (m_world mw) -> valid_op (m_world mw) o -> match o with OSetMetadata _ _ => False | _ => True end -> ntxs (step (m_world mw) o) = (ntxs (m_world mw) + length (new_refs mw o))%nat.
Proof.
  intros I V P. destruct o; try destruct P; cbn [step new_refs length]; rewrite ?Nat.add_0_r; try reflexivity.
  - unfold ntxs, new_tx_builder. cbn. rewrite app_length. reflexivity.
  - unfold sign_with. destruct (_ <? _)%nat; reflexivity.
  - rewrite run_bytes_eq. reflexivity.
  - rewrite run_hash_eq. reflexivity.
  - rewrite run_fee_eq. reflexivity.
  - rewrite run_min_fee_eq. reflexivity.
  - unfold add_change_if_needed. rewrite run_min_fee_eq. reflexivity.
  - destruct (build (m_world mw) b) as [w' r] eqn:E. cbn [fst snd]. destruct r as [t' | |].
    + destruct (build_loads _ b w' t' I V E) as (_ & _ & _ & _ & _ & _ & _ & _ & N & _). rewrite N. cbn [length]. lia.
    + apply build_fail in E; [| discriminate]. rewrite E, run_hash_eq. cbn. unfold ntxs. cbn. lia.
    + apply build_fail in E; [| discriminate]. rewrite E, run_hash_eq. cbn. unfold ntxs. cbn. lia.
Qed.
Lemma nth_beyond {A} (l : list A) i d : (length l <= i)%nat -> nth i l d = d. Proof. apply nth_overflow. Qed.

Lemma mstep_synced mw o : reachable (m_world mw) -> synced mw -> mvalid mw o -> reachable (m_world (mstep mw o)) /\ synced (mstep mw o).
Proof.
  intros R (L & S & F) V. destruct o as [m | t r | r m | o]; cbn [mstep m_world].
  - split; [exact R |]. split; [exact L |]. cbn [m_world m_refs m_maps]. split.
    + intros t Ht. rewrite (S t Ht). change (ref_of _ t) with (ref_of mw t). destruct (ref_of mw t) as [r |] eqn:E; [| reflexivity].
      assert (X := proj1 (Forall_nth _ _) F). symmetry. apply nth_error_app1. specialize (X t None ltac:(unfold ntxs in *; lia)). change (nth t (m_refs mw) None) with (ref_of mw t) in X. rewrite E in X. exact X.
    + eapply Forall_impl; [| exact F]. intros [r |] X; [rewrite app_length; lia | exact X].
  - destruct V as [V1 V2]. split; [exact (reachable_step _ (OSetMetadata t _) R V1) |]. split; [cbn [m_refs m_world]; rewrite upd_length, ntxs_set; exact L |]. cbn [m_world m_refs m_maps]. split.
    + intros u Hu. rewrite ntxs_set in Hu. rewrite load_set by exact V1. unfold ref_of. cbn [m_refs]. destruct (Nat.eqb_spec u t) as [-> | N].
      * rewrite nth_upd_same by (rewrite L; exact V1). reflexivity.
      * rewrite nth_upd_other by exact N. apply S. exact Hu.
    + apply Forall_upd; [exact F | destruct r; [exact V2 | exact Logic.I]].
  - cbn [mvalid] in V. destruct (show_facts (holders mw r) m (m_world mw) (holders_lt mw r L)) as (A & B & D & _). split; [exact (B R) |]. split; [cbn [m_refs m_world]; rewrite A; exact L |]. cbn [m_world m_refs m_maps]. split.
    + intros u Hu. rewrite A in Hu. rewrite D, holders_in by lia. change (ref_of {| m_world := show (m_world mw) (holders mw r) m; m_refs := m_refs mw; m_maps := upd (m_maps mw) r m |} u) with (ref_of mw u).
      destruct (holds mw r u) eqn:E.
      * apply holds_iff in E. rewrite E, nth_error_upd, Nat.eqb_refl by exact V. reflexivity.
      * rewrite (S u Hu). destruct (ref_of mw u) as [s |] eqn:E'; [| reflexivity]. rewrite nth_error_upd by exact V. unfold holds in E. rewrite E' in E. rewrite E. reflexivity.
    + eapply Forall_impl; [| exact F]. intros [s |] X; [rewrite upd_length; exact X | exact X].
  - destruct V as [V P]. pose proof (reachable_inv _ R) as I. split; [exact (reachable_step _ o R V) |]. pose proof (ntxs_call mw o I V P) as N. split; [cbn [m_refs m_world]; rewrite app_length, N, L; reflexivity |]. cbn [m_world m_refs m_maps].
    assert (FN : forall x, In x (new_refs mw o) -> x = None \/ exists b, o = OBuild b /\ x = ref_of mw (b_tx (bld (m_world mw) b))).
    { intros x X. destruct o; try destruct X as [<- | []]; auto; try destruct X. cbn [new_refs] in X. destruct (snd (build (m_world mw) b)); [destruct X as [<- | []]; right; exists b; auto | destruct X | destruct X]. }
    split.
    + intros u Hu. unfold ref_of. cbn [m_refs]. destruct (Nat.lt_ge_cases u (ntxs (m_world mw))) as [Lt | Ge].
      * rewrite nth_app_l by lia. change (Metadata (load (step (m_world mw) o) u)) with (o_meta (obj (step (m_world mw) o) u)). rewrite (meta_step _ o u I V P Lt). exact (S u Lt).
      * rewrite N in Hu. rewrite app_nth2 by lia. destruct o; cbn [new_refs length] in Hu; try lia.
        -- assert (u = ntxs (m_world mw)) by lia. subst u. rewrite L, Nat.sub_diag. cbn [new_refs nth]. unfold load, obj, step, new_tx_builder, ntxs. cbn. rewrite nth_app_last. reflexivity.
        -- cbn [new_refs]. destruct (build (m_world mw) b) as [w' res] eqn:E. cbn [snd] in *. destruct res as [t' | |]; cbn [length] in Hu; try lia. assert (u = ntxs (m_world mw)) by lia. subst u. rewrite L, Nat.sub_diag. cbn [nth step]. rewrite E. cbn [fst].
           destruct (build_loads _ b w' t' I V E) as (h & ws & _ & _ & X & _ & _ & -> & _). rewrite X. cbn [Metadata]. destruct (inv_builders _ I b V) as (K1 & _). exact (S _ K1).
    + apply Forall_app. split; [exact F |]. apply Forall_forall. intros x X. destruct (FN x X) as [-> | (b & _ & ->)]; [exact Logic.I |]. destruct (Nat.lt_ge_cases (b_tx (bld (m_world mw) b)) (length (m_refs mw))) as [Lt | Ge].
      * apply (proj1 (Forall_nth _ _) F). exact Lt.
      * unfold ref_of. rewrite nth_beyond by exact Ge. exact Logic.I.
Qed.
Lemma mrun_synced l : forall mw, reachable (m_world mw) -> synced mw -> mvalid_run mw l -> reachable (m_world (mrun mw l)) /\ synced (mrun mw l).
Proof. induction l as [| o l IH]; intros mw R S V; [auto |]. destruct V as [V1 V2]. destruct (mstep_synced mw o R S V1) as [R' S']. exact (IH _ R' S' V2). Qed.
End Facts.

(** Every state is one that Builder.v reaches, so that the theorems about reachable states hold with shared metadata as well; and every
    transaction shows what its map holds now. *)
Theorem C100_states : forall (C : TxCrypto) (MO : MapOrder) mw, m_reachable mw -> reachable (m_world mw) /\
  forall t, (t < ntxs (m_world mw))%nat -> Metadata (load (m_world mw) t) = match ref_of mw t with Some r => nth_error (m_maps mw) r | None => None end.
Proof.
  intros C MO mw (l & V & ->). destruct (mrun_synced l m_empty) as [R (_ & S & _)]; [exists []; split; [exact Logic.I | reflexivity] | | exact V | split; [exact R | exact S]].
  split; [reflexivity |]. split; [intros t Ht; cbn in Ht; lia | constructor].
Qed.
Print Assumptions C100_states.
Lemma m_reachable_synced {C : TxCrypto} {MO : MapOrder} mw : m_reachable mw -> synced mw.
Proof.
  intros (l & V & ->). destruct (mrun_synced l m_empty) as [_ S]; [exists []; split; [exact Logic.I | reflexivity] | | exact V | exact S].
  split; [reflexivity |]. split; [intros t Ht; cbn in Ht; lia | constructor].
Qed.
(** The built transaction holds the map of the builder's transaction. *)
Theorem C100_build : forall (C : TxCrypto) (MO : MapOrder) mw b w' t', m_reachable mw -> (b < nbuilders (m_world mw))%nat -> build (m_world mw) b = (w', Ok t') ->
  let built := mstep mw (MCall (OBuild b)) in
  m_world built = w' /\ ref_of built t' = ref_of mw (b_tx (bld (m_world mw) b)) /\ ref_of built (b_tx (bld w' b)) = ref_of mw (b_tx (bld (m_world mw) b)).
Proof.
  intros C MO mw b w' t' R Hb E built. pose proof (m_reachable_synced mw R) as (L & _). destruct (C100_states C MO mw R) as [RW _]. pose proof (reachable_inv _ RW) as I. destruct (inv_builders _ I b Hb) as (K1 & _).
  destruct (build_loads _ b w' t' I Hb E) as (h & ws & _ & _ & _ & _ & _ & ET & _ & _ & _ & EB). unfold built. cbn [mstep m_world step]. rewrite E. cbn [fst]. split; [reflexivity |].
  unfold ref_of at 1 3. cbn [m_refs new_refs]. rewrite E. cbn [snd]. rewrite ET, EB, <- L. split; [apply nth_app_last | apply nth_app_l; rewrite L; exact K1].
Qed.
Print Assumptions C100_build.
(** The effect of a write on every transaction: those that hold the map show the new content; nothing else changes. *)
Theorem C100_exact : forall (C : TxCrypto) (MO : MapOrder) mw r m t, m_reachable mw -> mvalid mw (MWrite r m) -> (t < ntxs (m_world mw))%nat ->
  let old := load (m_world mw) t in let new := load (m_world (mstep mw (MWrite r m))) t in
  (ref_of mw t = Some r -> new = {| Body := Body old; Witness := Witness old; Valid := Valid old; Metadata := Some m |}) /\
  (ref_of mw t <> Some r -> new = old).
Proof.
  intros C MO mw r m t R V Ht old new. destruct (m_reachable_synced mw R) as (L & _). destruct (show_facts (holders mw r) m (m_world mw) (holders_lt mw r L)) as (_ & _ & D & _).
  unfold new. cbn [mstep m_world]. rewrite D, holders_in by lia. fold old. split; intros E.
  - rewrite (proj2 (holds_iff mw r t) E). reflexivity.
  - destruct (holds mw r t) eqn:X; [apply holds_iff in X; contradiction | reflexivity].
Qed.
Print Assumptions C100_exact.
(** False: after a write to its map a built transaction has the witnesses for one body, and Hash (like Bytes) gives another, unless the
    two contents have the same hash. *)
Theorem C100_refuted : forall (C : TxCrypto) (MO : MapOrder) mw b w' t' r m m' n, runtime_order -> hash_ok -> m_reachable mw -> (b < nbuilders (m_world mw))%nat ->
  tx_ok (builder_tx (m_world mw) b) -> build (m_world mw) b = (w', Ok t') ->
  ref_of mw (b_tx (bld (m_world mw) b)) = Some r -> nth_error (m_maps mw) r = Some m -> md_ok m' ->
  let changed := mstep (mstep mw (MCall (OBuild b))) (MWrite r m') in
  exists s s', sign_all (builder_keys (m_world mw) b) (blake2b256 s) = Ok (Witness (load (m_world changed) t')) /\
    snd (tx_hash n (load (m_world changed) t')) = Ok (blake2b256 s') /\
    (s = s' <-> blake2b256 (cbor (md_item (map_order (w_clock (m_world mw)) m))) = blake2b256 (cbor (md_item (map_order n m')))).
Proof.
  intros C MO mw b w' t' r m m' n RO HO R Hb K E Hr Hm KM' changed. destruct (C100_states C MO mw R) as [RW S]. pose proof (reachable_inv _ RW) as I. destruct (inv_builders _ I b Hb) as (K1 & _).
  destruct (build_loads _ b w' t' I Hb E) as (h & ws & E1 & E2 & E3 & _ & _ & ET & EN & _).
  destruct (C100_build C MO mw b w' t' R Hb E) as (W1 & R1 & _). set (mw1 := mstep mw (MCall (OBuild b))) in *.
  assert (RM : m_reachable mw1).
  { destruct R as (l & V & ->). exists (l ++ [MCall (OBuild b)]). split; [| unfold mrun; rewrite fold_left_app; reflexivity].
    assert (P : mvalid (mrun m_empty l) (MCall (OBuild b))) by (split; [exact Hb | exact Logic.I]). clear - V P. revert V P. unfold mrun. generalize m_empty. induction l as [| o l IH]; intros w V P; cbn in *; [auto |]. destruct V. split; auto. }
  assert (V2 : mvalid mw1 (MWrite r m')). { cbn [mvalid]. change (m_maps mw1) with (m_maps mw). apply nth_error_Some. rewrite Hm. discriminate. }
  assert (Ht : (t' < ntxs (m_world mw1))%nat) by (rewrite W1, EN, ET; lia).
  destruct (C100_exact C MO mw1 r m' t' RM V2 Ht) as [X _]. cbv zeta in X. rewrite R1 in X. specialize (X Hr). fold changed in X. rewrite W1 in X.
  set (B := builder_tx (m_world mw) b) in *. set (n0 := w_clock (m_world mw)) in *. rewrite (tx_hash_spec n0 B RO HO K) in E1, E3. cbn [fst snd] in E1, E3. injection E1 as <-.
  assert (MB : Metadata B = Some m). { unfold B, builder_tx. rewrite (S _ K1), Hr. exact Hm. }
  destruct K as (KB & KW & KM). assert (BA : body_ok (aux_body n0 B)) by (apply aux_body_ok; assumption).
  rewrite E3 in X. cbn [Body Witness Valid] in X. set (T := load (m_world changed) t') in *.
  assert (TK : body_ok (aux_body n T)) by (apply aux_body_ok; [exact HO | rewrite X; exact BA]).
  exists (cbor (the_body (aux_body n0 B))), (cbor (the_body (aux_body n T))). split; [rewrite X; exact E2 |]. split.
  - unfold tx_hash, after_aux. rewrite calc_aux_spec; [| exact RO | rewrite X; exact KM']. cbn [snd Body with_body]. rewrite body_marshal_spec by exact TK. reflexivity.
  - assert (A1 : AuxHash (aux_body n0 B) = blake2b256 (cbor (md_item (map_order n0 m)))) by (rewrite aux_body_hash, MB; reflexivity).
    assert (A2 : AuxHash (aux_body n T) = blake2b256 (cbor (md_item (map_order n m')))) by (rewrite aux_body_hash, X; reflexivity). split.
    + intros Q. apply cbor_inj in Q; [| apply the_body_ok; exact BA | apply the_body_ok; exact TK]. apply the_body_inj in Q; [| exact BA | exact TK]. destruct Q as (_ & _ & _ & _ & Q). rewrite <- A1, <- A2. exact Q.
    + intros Q. f_equal. f_equal. unfold aux_body in *. rewrite MB in *. rewrite X. cbn [Metadata Body]. unfold set_aux. cbn [Inputs Outputs Fee TTL AuxHash]. rewrite Q. reflexivity.
Qed.
Print Assumptions C100_refuted.

Section Ex100.
#[local] Existing Instance ex_crypto. #[local] Existing Instance id_order.
Definition ex_map (n : Z) : md := MdMap [(MdUint 1, MdText [n])].
Lemma ex_map_ok n : 0 <= n < 256 -> md_ok (ex_map n).
Proof. intros N. unfold ex_map. cbn [md_ok fold_right]. repeat (split; [reflexivity || lia || (split; [reflexivity | intros x [<- | []]; exact N]) |]). exact Logic.I. Qed.
Definition ex_shared : list mop :=
  [MCall (OMakeKeys ex_keys 0); MCall (ONewBuilder ex_fees {| s_arr := 0; s_off := 0; s_len := length ex_keys |});
   MNew (ex_map 97); MAssign 0 (Some 0%nat)].
Definition ex_mw : MWorld := mrun m_empty ex_shared.
(** A map with a single entry, assigned to the builder's transaction, is overwritten after Build. *)
Example C100_example : m_reachable ex_mw /\ (0 < nbuilders (m_world ex_mw))%nat /\ tx_ok (builder_tx (m_world ex_mw) 0) /\
  ref_of ex_mw (b_tx (bld (m_world ex_mw) 0)) = Some 0%nat /\ nth_error (m_maps ex_mw) 0 = Some (ex_map 97) /\ md_ok (ex_map 98) /\
  blake2b256 (cbor (md_item (ex_map 97))) <> blake2b256 (cbor (md_item (ex_map 98))) /\
  exists w t, build (m_world ex_mw) 0 = (w, Ok t) /\ t = 1%nat /\
    map (fun u => Metadata (load (m_world (mstep (mstep ex_mw (MCall (OBuild 0))) (MWrite 0 (ex_map 98)))) u)) [0%nat; 1%nat] = [Some (ex_map 98); Some (ex_map 98)].
Proof.
  split. { exists ex_shared. split; [| reflexivity]. unfold ex_shared. cbn [mvalid_run]. split; [split; exact Logic.I |]. split; [split; [cbn; lia | exact Logic.I] |]. split; [exact Logic.I |]. split; [split; cbn; lia | exact Logic.I]. }
  split; [cbn; lia |]. split.
  { split; [| split].
    - unfold body_ok. split; [constructor |]. split; [constructor |]. do 2 (split; [reflexivity |]). split; [cbn; lia |]. split; [cbn; lia |]. split; [intros x [] | reflexivity].
    - split; [constructor | cbn; lia].
    - apply ex_map_ok; lia. }
  split; [reflexivity |]. split; [reflexivity |]. split; [apply ex_map_ok; lia |]. split; [vm_compute; discriminate |]. do 2 eexists. vm_compute. repeat split; reflexivity.
Qed.
End Ex100.
