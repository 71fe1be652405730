(** Inputs, outputs and keys that the caller changes through the pointers given to a transaction. *)
From Verif.Model Require Import Base Cbor Network Address Tx Builder Pointers.
From Verif.Spec Require Import CborSpec TxSpec MdSpec Values World Pointers.
From Verif.Proofs Require Import Util HeapFacts HeapProps TxFacts PointerFacts.
From Verif.Props Require Import Tx Builder.

(** ** C91 *)
(** Without writes the pointers do not matter: every call is the call of Builder.v with the values, so every state is one that
    Builder.v reaches. *)
Theorem C91_values : forall (C : TxCrypto) (MO : MapOrder),
  (forall pw o, p_reachable pw -> pvalid pw o -> ~ is_write o ->
     match value_op pw o with Some o' => valid_op (view pw) o' /\ view (pstep pw o) = step (view pw) o' | None => view (pstep pw o) = view pw end) /\
  (forall l, pvalid_run p_empty l -> Forall (fun o => ~ is_write o) l -> reachable (view (prun p_empty l))).
Proof.
  intros C MO. split.
  - intros pw o R V W. destruct (pstep_view pw o (p_reachable_inv pw R) V W) as (E & _ & Q). rewrite E. destruct (value_op pw o); auto.
  - assert (G : forall l pw, PInv pw -> reachable (view pw) -> pvalid_run pw l -> Forall (fun o => ~ is_write o) l -> reachable (view (prun pw l))).
    { induction l as [| o l IH]; intros pw P R V W; [exact R |]. destruct V as [V1 V2]. inversion W as [| ? ? W1 W2]; subst. apply (IH (pstep pw o)); auto; [apply pstep_inv; auto |].
      destruct (pstep_view pw o P V1 W1) as (-> & _ & Q). destruct (value_op pw o); [apply reachable_step; auto | exact R]. }
    intros l. apply G; [apply pinv_empty |]. exists []. split; [exact Logic.I | reflexivity].
Qed.
Print Assumptions C91_values.

(** The pointers in a transaction are those that were added, in order. *)
Theorem C91_pointers : forall (C : TxCrypto) (MO : MapOrder) pw t l, p_reachable pw ->
  (pvalid pw (PAddInputs t l) -> ins_of (pstep pw (PAddInputs t l)) t = ins_of pw t ++ l /\ outs_of (pstep pw (PAddInputs t l)) t = outs_of pw t) /\
  (pvalid pw (PAddOutputs t l) -> outs_of (pstep pw (PAddOutputs t l)) t = outs_of pw t ++ l /\ ins_of (pstep pw (PAddOutputs t l)) t = ins_of pw t).
Proof.
  intros C MO pw t l R. destruct (p_reachable_inv pw R) as [I _].
  assert (L : (t < length (p_txs pw))%nat -> (p_body pw t < length (p_bodies pw))%nat).
  { intros Ht. destruct (inv_txs _ I t Ht) as [K _]. cbn [w_bodies view] in K. rewrite map_length in K. exact K. }
  split; intros [Ht _]; specialize (L Ht); unfold ins_of, outs_of; cbn [pstep p_add_inputs p_add_outputs]; unfold p_add_inputs, p_add_outputs;
    change (p_body (with_bodies pw _) t) with (p_body pw t); cbn [p_bodies with_bodies]; rewrite nth_upd_same by exact L; split; reflexivity.
Qed.
Print Assumptions C91_pointers.

(** A write through a pointer shows in every transaction that holds it, at every place where it holds it, built or not, and nowhere else. *)
Theorem C91_exact : forall (C : TxCrypto) (MO : MapOrder) pw t r, p_reachable pw -> (t < length (p_txs pw))%nat ->
  let T := load (view pw) t in
  (forall o, pvalid pw (PSetOutput r o) -> let T' := load (view (pstep pw (PSetOutput r o))) t in
     T' = with_body T {| Inputs := Inputs (Body T); Outputs := map (fun s => if (s =? r)%nat then o else output_at pw s) (outs_of pw t);
                         Fee := Fee (Body T); TTL := TTL (Body T); AuxHash := AuxHash (Body T) |}) /\
  (forall i, pvalid pw (PSetInput r i) -> let T' := load (view (pstep pw (PSetInput r i))) t in
     T' = with_body T {| Inputs := map (fun s => if (s =? r)%nat then i else input_at pw s) (ins_of pw t); Outputs := Outputs (Body T);
                         Fee := Fee (Body T); TTL := TTL (Body T); AuxHash := AuxHash (Body T) |}) /\
  Inputs (Body T) = map (input_at pw) (ins_of pw t) /\ Outputs (Body T) = map (output_at pw) (outs_of pw t).
Proof.
  intros C MO pw t r R Ht T.
  assert (E : forall pw' : PWorld, Body (load (view pw') t) = body_now pw' (nth (p_body pw' t) (p_bodies pw') nil_pbody)) by (intros pw'; rewrite load_body, body_now_nth; reflexivity).
  assert (X : forall pw' : PWorld, p_txs pw' = p_txs pw -> p_wits pw' = p_wits pw -> load (view pw') t = with_body T (Body (load (view pw') t))).
  { intros pw' E1 E2. unfold T, with_body, load, obj. cbn [w_txs w_wits view Witness Valid Metadata Body]. rewrite E1, E2. reflexivity. }
  split; [| split; [| split; unfold T; rewrite E; reflexivity]].
  - intros o V. cbv zeta. rewrite X by reflexivity. f_equal. unfold T. rewrite !E. unfold body_now at 1. cbn [pstep p_bodies with_heaps]. f_equal.
    apply map_ext. intros s. unfold output_at at 1. cbn [p_outputs with_heaps]. destruct (Nat.eqb_spec s r) as [-> | N]; [apply nth_upd_same; exact V | apply nth_upd_other; exact N].
  - intros i V. cbv zeta. rewrite X by reflexivity. f_equal. unfold T. rewrite !E. unfold body_now at 1. cbn [pstep p_bodies with_heaps]. f_equal.
    apply map_ext. intros s. unfold input_at at 1. cbn [p_inputs with_heaps]. destruct (Nat.eqb_spec s r) as [-> | N]; [apply nth_upd_same; exact V | apply nth_upd_other; exact N].
Qed.
Print Assumptions C91_exact.

(** False, also for a transaction that is built and signed: after a write to one of its outputs the witnesses are those for another
    body, and Hash returns the hash of that other body. *)
Theorem C91_refuted : forall (C : TxCrypto) (MO : MapOrder) pw b w' t' r x n, runtime_order -> hash_ok -> p_reachable pw -> (b < length (p_builders pw))%nat ->
  tx_ok (builder_tx (view pw) b) -> build (view pw) b = (w', Ok t') -> In r (outs_of pw (b_tx (bld (view pw) b))) -> 0 <= x < 2 ^ 64 -> x <> OutAmount (output_at pw r) ->
  let changed := pstep (pstep pw (PCall (OBuild b))) (PSetOutput r {| OutAddress := OutAddress (output_at pw r); OutAmount := x |}) in
  exists s s', sign_all (builder_keys (view pw) b) (blake2b256 s) = Ok (Witness (load (view changed) t')) /\
    snd (tx_hash n (load (view changed) t')) = Ok (blake2b256 s') /\ s <> s'.
Proof.
  intros C MO pw b w' t' r x n RO HO R Hb K E Hr Hx N changed. destruct (p_reachable_inv pw R) as [I RF].
  destruct (build_loads (view pw) b w' t' I Hb E) as (h & ws & E1 & E2 & E3 & _ & _ & E4 & E5 & _ & E6 & _).
  assert (P1 : pvalid pw (PCall (OBuild b))) by (split; [exact Hb | exact Logic.I]).
  set (pw1 := pstep pw (PCall (OBuild b))) in *. assert (V1 : view pw1 = w').
  { destruct (pstep_view pw (PCall (OBuild b)) (conj I RF) P1 (fun H => H)) as (Q & _). fold pw1 in Q. rewrite Q. cbn [value_op step]. rewrite E. reflexivity. }
  assert (R1 : p_reachable pw1).
  { destruct R as (l & V & ->). exists (l ++ [PCall (OBuild b)]). split; [| unfold prun; rewrite fold_left_app; reflexivity].
    clear - V P1. revert V P1. unfold prun. generalize p_empty. induction l as [| o l IH]; intros w V P1; cbn in *; [auto |]. destruct V. split; auto. }
  assert (Ht : (t' < length (p_txs pw1))%nat) by (change (length (p_txs pw1)) with (ntxs (view pw1)); rewrite V1, E5, E4; lia).
  set (o := {| OutAddress := OutAddress (output_at pw r); OutAmount := x |}) in *.
  assert (Hrr : (r < length (p_outputs pw))%nat) by (pose proof (refs_nth_outs pw (p_body pw (b_tx (bld (view pw) b))) RF) as Q; eapply Forall_forall in Q; [exact Q | exact Hr]).
  assert (P2 : pvalid pw1 (PSetOutput r o)) by exact Hrr.
  destruct (C91_exact C MO pw1 t' r R1 Ht) as (Q & _ & _ & QO). specialize (Q o P2). cbv zeta in Q. fold changed in Q.
  assert (EO : outs_of pw1 t' = outs_of pw (b_tx (bld (view pw) b))).
  { unfold outs_of, pw1. cbn [pstep]. change (p_body (assign _ _) t') with (o_body (obj (step (view pw) (OBuild b)) t')). cbn [step]. rewrite E. cbn [fst]. rewrite E6.
    destruct (inv_builders _ I b Hb) as (_ & K2 & _). change (p_body pw (b_tx (bld (view pw) b))) with (o_body (obj (view pw) (b_tx (bld (view pw) b)))). rewrite K2.
    cbn [p_bodies assign]. assert (L : length (w_bodies w') = length (p_bodies pw)).
    { pose proof (bodies_step (view pw) (OBuild b)) as X. cbn [step] in X. rewrite E in X. cbn [fst] in X. rewrite X. cbn. apply map_length. }
    clear - L. revert L. generalize (w_bodies w') b. induction (p_bodies pw) as [| y l IH]; intros [| v k] i L; try discriminate; destruct i; cbn; auto; apply IH; cbn in L; lia. }
  rewrite V1 in Q, QO. set (T := load w' t') in *. rewrite EO in Q, QO. set (refs := outs_of pw (b_tx (bld (view pw) b))) in *.
  change (output_at pw1) with (output_at pw) in Q, QO. clearbody refs.
  set (B := builder_tx (view pw) b) in *. rewrite (tx_hash_spec _ B RO HO K) in E1, E3. cbn [fst snd] in E1, E3. injection E1 as <-. set (n0 := w_clock (view pw)) in *.
  destruct K as ((B1 & B2 & B3 & B4 & B5 & B6 & B7 & B8) & KW & KM).
  assert (BA : body_ok (aux_body n0 B)) by (apply aux_body_ok; [exact HO |]; unfold body_ok; tauto).
  set (nb := {| Inputs := Inputs (Body T); Outputs := map (fun s => if (s =? r)%nat then o else output_at pw s) refs; Fee := Fee (Body T); TTL := TTL (Body T); AuxHash := AuxHash (Body T) |}) in *.
  assert (EB : Body T = aux_body n0 B) by (rewrite E3; reflexivity).
  assert (FO : Forall out_ok (map (output_at pw) refs)) by (rewrite <- QO, EB; apply BA).
  assert (NB : body_ok nb).
  { destruct BA as (A1 & A2 & A3 & A4 & A5 & A6 & A7 & A8). unfold nb, body_ok. cbn [Inputs Outputs Fee TTL AuxHash]. rewrite EB. split; [exact A1 |]. split.
    - apply Forall_map. apply (proj1 (Forall_map _ _ _)) in FO. eapply Forall_impl; [| exact FO]. cbn. intros s Hs. destruct (Nat.eqb_spec s r) as [-> | _]; [| exact Hs].
      destruct Hs as [Hs _]. split; [exact Hs | exact Hx].
    - split; [exact A3 |]. split; [| split; [exact A5 |]; split; [exact A6 |]; split; [exact A7 | exact A8]].
      rewrite <- EB, QO in A4. unfold zlen in *. rewrite map_length in *. exact A4. }
  exists (cbor (the_body (aux_body n0 B))), (cbor (the_body (aux_body n (with_body T nb)))). split; [rewrite Q; cbn [Witness with_body]; rewrite E3; exact E2 |].
  assert (MT : Metadata T = Metadata B) by (rewrite E3; reflexivity).
  assert (TK : body_ok (aux_body n (with_body T nb))) by (apply aux_body_ok; [exact HO | exact NB]).
  split.
  - rewrite Q. unfold tx_hash, after_aux. rewrite calc_aux_spec; [| exact RO | cbn [Metadata with_body]; rewrite MT; exact KM]. cbn [snd Body with_body].
    rewrite body_marshal_spec by exact TK. reflexivity.
  - intros X. apply cbor_inj in X; [| apply the_body_ok; exact BA | apply the_body_ok; exact TK]. apply the_body_inj in X; auto. destruct X as (_ & X & _).
    assert (O1 : Outputs (aux_body n (with_body T nb)) = Outputs nb) by (unfold aux_body; destruct (Metadata (with_body T nb)); reflexivity). rewrite O1, <- EB, QO in X. unfold nb in X. cbn [Outputs] in X.
    rewrite !map_map in X. clear - X Hr N. induction refs as [| s l IH]; [destruct Hr |]. cbn [map] in X. injection X as _ X1 X2. destruct Hr as [-> | Hr]; [| auto].
    rewrite Nat.eqb_refl in X1. cbn in X1. congruence.
Qed.
Print Assumptions C91_refuted.

(** ** C92 *)
(** Build signs with the bytes the keys have when it is called. *)
Theorem C92_exact : forall (C : TxCrypto) (MO : MapOrder) pw b w' t', p_reachable pw -> (b < length (p_builders pw))%nat -> build (view pw) b = (w', Ok t') ->
  exists s, body_marshal (Body (load w' t')) = Ok s /\
    Forall2 (fun r x => key_public (key_at pw r) = Ok (VKey x) /\ key_sign (key_at pw r) (blake2b256 s) = Ok (Signature x)) (keys_of pw b) (Witness (load w' t')).
Proof.
  intros C MO pw b w' t' R Hb E. destruct (p_reachable_inv pw R) as [I RF]. destruct (build_loads (view pw) b w' t' I Hb E) as (h & ws & E1 & E2 & E3 & _).
  destruct (tx_hash_body _ _ _ E1) as (s & S1 & ->). exists s. rewrite E3. cbn [Body Witness]. split; [exact S1 |].
  apply sign_all_forall2 in E2. assert (Q : builder_keys (view pw) b = map (key_at pw) (keys_of pw b)).
  { unfold builder_keys, keys_of, slice_keys. cbn [w_arrays view]. change (bld (view pw) b) with (nth b (p_builders pw) nil_builder).
    change (@nil bytes) with (map (key_at pw) []). rewrite map_nth, skipn_map, firstn_map. reflexivity. }
  rewrite Q in E2. remember (map (key_at pw) (keys_of pw b)) as l eqn:El. clear - E2 El. revert El. generalize (keys_of pw b). induction E2; intros [| r rs] El; try discriminate; constructor.
  - injection El as -> _. exact H.
  - apply IHE2. injection El as _ El. exact El.
Qed.
Print Assumptions C92_exact.

(** False: a key that is overwritten between Sign and Build signs with what it was overwritten with. *)
Theorem C92_refuted : forall (C : TxCrypto) (MO : MapOrder) pw b r k w' t', p_reachable pw -> pvalid pw (PSign b r) -> pvalid pw (PSetKey r k) ->
  build (view (pstep (pstep pw (PSign b r)) (PSetKey r k))) b = (w', Ok t') ->
  exists s ws x, body_marshal (Body (load w' t')) = Ok s /\ Witness (load w' t') = ws ++ [x] /\ key_public k = Ok (VKey x) /\ key_sign k (blake2b256 s) = Ok (Signature x).
Proof.
  intros C MO pw b r k w' t' R V1 V2 E. set (pw1 := pstep pw (PSign b r)) in *. set (pw2 := pstep pw1 (PSetKey r k)) in *.
  assert (K1 : p_keys pw1 = p_keys pw) by (unfold pw1; cbn [pstep]; unfold p_sign; destruct (_ <? _)%nat; reflexivity).
  assert (R2 : p_reachable pw2).
  { destruct R as (l & V & ->). exists (l ++ [PSign b r; PSetKey r k]). split; [| unfold prun; rewrite fold_left_app; reflexivity].
    assert (V3 : pvalid pw1 (PSetKey r k)) by (cbn [pvalid]; rewrite K1; exact V2). clear - V V1 V3. unfold pw1 in V3. clear pw1. revert V V1 V3. unfold prun. generalize p_empty.
    induction l as [| o l IH]; intros w V V1 V3; cbn [app pvalid_run fold_left] in *; [auto |]. destruct V as [Va Vb]. split; [exact Va |]. apply IH; auto. }
  assert (B2 : (b < length (p_builders pw2))%nat).
  { destruct V1 as [V1 _]. unfold pw2, pw1. cbn [pstep with_heaps p_builders]. unfold p_sign. destruct (_ <? _)%nat; cbn; rewrite upd_length; exact V1. }
  destruct (C92_exact C MO pw2 b w' t' R2 B2 E) as (s & S1 & F).
  assert (EK : exists l, keys_of pw2 b = l ++ [Some r]).
  { destruct (p_reachable_inv pw R) as [I _]. destruct V1 as [Vb _]. destruct (inv_builders _ I b Vb) as (_ & _ & [A1 A2]). unfold keys_of, pw2, pw1. cbn [pstep with_heaps p_builders p_arrays].
    change (bld (view pw) b) with (nth b (p_builders pw) nil_builder) in *. unfold p_sign. set (bo := nth b (p_builders pw) nil_builder) in *. set (sl := b_keys bo) in *.
    cbn [w_arrays view] in A1, A2. rewrite map_length in A1. change (@nil bytes) with (map (key_at pw) []) in A2. rewrite map_nth, map_length in A2.
    destruct (Nat.ltb_spec (s_off sl + s_len sl) (length (nth (s_arr sl) (p_arrays pw) []))) as [L | L]; cbn [with_arrays p_builders p_arrays]; rewrite nth_upd_same by exact Vb; cbn [b_keys s_arr s_off s_len].
    - rewrite nth_upd_same by exact A1. eexists. apply slice_append_any. exact L.
    - rewrite nth_app_last. cbn [skipn]. exists (firstn (s_len sl) (skipn (s_off sl) (nth (s_arr sl) (p_arrays pw) []))). set (l := firstn (s_len sl) (skipn (s_off sl) (nth (s_arr sl) (p_arrays pw) []))). clearbody l.
      change (Some r :: repeat None (length l)) with ([Some r] ++ repeat None (length l)). rewrite firstn_app. replace (S (length l) - length l)%nat with 1%nat by lia. rewrite firstn_all2 by lia. reflexivity. }
  destruct EK as [l EK]. rewrite EK in F. apply Forall2_app_inv_l in F as (ws & w1 & F1 & F2 & EW). inversion F2 as [| ? x ? ? [P1 P2] F3]; subst. inversion F3; subst.
  exists s, ws, x. split; [exact S1 |]. split; [exact EW |].
  assert (KA : key_at pw2 (Some r) = k) by (unfold pw2; cbn [pstep key_at with_heaps p_keys]; apply nth_upd_same; rewrite K1; apply V2). rewrite KA in P1, P2. auto.
Qed.
Print Assumptions C92_refuted.

(** True after Build, and of every transaction: writing to keys changes no transaction, and no write changes witnesses. *)
Theorem C92_after : forall (C : TxCrypto) (MO : MapOrder) pw t, (forall r k, load (view (pstep pw (PSetKey r k))) t = load (view pw) t) /\
  (forall o, is_write o -> Witness (load (view (pstep pw o)) t) = Witness (load (view pw) t)).
Proof. intros C MO pw t. split; [reflexivity |]. intros o W. destruct o; try destruct W; reflexivity. Qed.
Print Assumptions C92_after.

Section Ex91.
#[local] Existing Instance ex_crypto.
#[local] Existing Instance id_order.
(** One key, one input, one output that is added twice; TTL and fee; a second builder with the same output. *)
Definition ex_program : list pop :=
  [PNewKey (repeat 7 96); PNewInput (ex_input 5000000); PNewOutput (ex_out TestNet 1000000); PMakeKeys [0%nat] 1;
   PNewBuilder ex_fees {| s_arr := 0; s_off := 0; s_len := 1 |}; PAddInputs 0 [0%nat]; PAddOutputs 0 [0%nat; 0%nat]; PCall (OSetTTL 0 5000);
   PNewBuilder ex_fees {| s_arr := 0; s_off := 0; s_len := 0 |}; PAddOutputs 1 [0%nat]].
Definition ex_pointers : PWorld := prun p_empty ex_program.
Lemma ex_pointers_reachable : p_reachable ex_pointers.
Proof.
  exists ex_program. split; [| reflexivity]. cbn [pvalid_run ex_program]. repeat split; cbn; try lia; repeat (apply Forall_cons || apply Forall_nil); lia.
Qed.
Lemma ex_pointers_ok : tx_ok (builder_tx (view ex_pointers) 0).
Proof.
  assert (F : forall l, forallb (fun x => (0 <=? x) && (x <? 256)) l = true -> all_bytes l).
  { intros l H b Hb. rewrite forallb_forall in H. apply H in Hb. lia. }
  split; [| split]; [| split; [apply Forall_nil | reflexivity] | exact Logic.I].
  split; [| split]; [| | do 2 (split; [reflexivity |]); split; [cbn; lia |]; split; [cbn; lia |]; split; [intros b [] | reflexivity]].
  - repeat (apply Forall_cons || apply Forall_nil); (split; [apply bytes_repeat; lia | split; cbn; lia]).
  - repeat (apply Forall_cons || apply Forall_nil); (split; [split; [apply F; reflexivity | reflexivity] | cbn; lia]).
Qed.
Example C91_values_example : Forall (fun o => ~ is_write o) ex_program /\ reachable (view ex_pointers) /\ sum_out (Body (builder_tx (view ex_pointers) 0)) = 2000000.
Proof.
  assert (W : Forall (fun o => ~ is_write o) ex_program) by (repeat (apply Forall_cons; [intros [] |]); apply Forall_nil). split; [exact W |]. split; [| vm_compute; reflexivity].
  apply C91_values; [| exact W]. cbn [pvalid_run ex_program]. repeat split; cbn; try lia; repeat (apply Forall_cons || apply Forall_nil); lia.
Qed.
(** Both places in the first transaction and the one in the second change. *)
Example C91_exact_example : let pw := pstep ex_pointers (PSetOutput 0 (ex_out TestNet 5)) in
  map (fun t => map OutAmount (Outputs (Body (load (view pw) t)))) [0%nat; 1%nat] = [[5; 5]; [5]].
Proof. vm_compute. reflexivity. Qed.
Example C91_refuted_example : tx_ok (builder_tx (view ex_pointers) 0) /\ In 0%nat (outs_of ex_pointers (b_tx (bld (view ex_pointers) 0))) /\
  5 <> OutAmount (output_at ex_pointers 0) /\ exists w t, build (view ex_pointers) 0 = (w, Ok t) /\ length (Witness (load w t)) = 1%nat.
Proof. split; [apply ex_pointers_ok |]. split; [left; reflexivity |]. split; [vm_compute; discriminate |]. do 2 eexists. vm_compute. split; reflexivity. Qed.
Example C92_refuted_example : pvalid ex_pointers (PSign 0 0) /\ pvalid ex_pointers (PSetKey 0 (repeat 0 96)) /\
  let pw := pstep (pstep ex_pointers (PSign 0 0)) (PSetKey 0 (repeat 0 96)) in
  exists w t, build (view pw) 0 = (w, Ok t) /\ map VKey (Witness (load w t)) = [repeat 0 32; repeat 0 32].
Proof. split; [cbn; lia |]. split; [split; [cbn; lia | reflexivity] |]. cbv zeta. do 2 eexists. vm_compute. split; reflexivity. Qed.
End Ex91.
