(** C116: use from several goroutines. *)
From Verif.Model Require Import Base Cbor Address Tx Builder Concurrent.
From Verif.Spec Require Import MdSpec Values World RaceSpec.
From Verif.Proofs Require Import Util TxFacts HeapFacts HeapProps ConcurrentFacts.
From Verif.Props Require Import Tx Metadata Builder.

Lemma nth_upd {A} (l : list A) i j x d : (i < length l)%nat -> nth j (upd l i x) d = if Nat.eq_dec i j then x else nth j l d.
Proof. intros H. destruct (Nat.eq_dec i j) as [<- | N]; [apply nth_upd_same; exact H | apply nth_upd_other; congruence]. Qed.
Lemma nth_snoc {A} (l : list A) j x d : nth j (l ++ [x]) d = if Nat.eq_dec (length l) j then x else nth j l d.
Proof.
  destruct (Nat.eq_dec (length l) j) as [<- | N]; [apply nth_app_last |]. destruct (lt_dec j (length l)) as [L | L]; [apply app_nth1; exact L |].
  rewrite !nth_overflow; [reflexivity | lia |]. rewrite app_length. cbn [length]. lia.
Qed.

Lemma upd_upd {A} (l : list A) i x y : upd (upd l i x) i y = upd l i y.
Proof. revert i. induction l as [| z l IH]; intros [| i]; cbn [upd]; try reflexivity. rewrite IH. reflexivity. Qed.

Section Faithful.
Context {C : TxCrypto} {MO : MapOrder}.
Definition same (m m' : mem) : Prop := forall l, ~ is_room l -> m l = m' l.
Ltac look := repeat match goal with
  | |- context [set ?m ?l ?v ?l'] => let E := fresh "E" in destruct (loc_eq_dec l l') as [E | E];
      [try discriminate E; try (injection E; intros; subst); rewrite set_same | rewrite (set_other m l v l' E)] end.
Ltac cells := let l := fresh "l" in intros l NR; destruct l; try (exfalso; apply NR; exact I); clear NR.

Lemma same_refl m : same m m. Proof. intros l _. reflexivity. Qed.
Lemma same_trans m m' m'' : same m m' -> same m' m'' -> same m m''.
Proof. intros H H' l N. rewrite H, H' by exact N. reflexivity. Qed.
Lemma same_set m m' l v : same m m' -> same (set m l v) (set m' l v).
Proof. intros H l' N. apply set_ext. intros _. apply H. exact N. Qed.
Lemma same_set_room m m' b v : same m m' -> same (set m (LRoom b) v) m'.
Proof. intros H l N. rewrite set_other; [apply H; exact N |]. intros <-. apply N. exact I. Qed.
Lemma same_tick w n : same (mem_of (tick w n)) (mem_of w). Proof. cells; reflexivity. Qed.

Ltac use H := match goal with |- ?m ?l = _ => exact (H l (fun x => x)) end.
Ltac one_field H := cells; cbn [mem_of put_body put_wit put_tx put_array put_builder w_bodies w_txs w_wits w_arrays w_builders] in *;
  unfold obj, bld in *; cbn [put_body put_wit put_tx put_array put_builder w_bodies w_txs w_wits w_arrays w_builders] in *; look;
  try use H; try (rewrite nth_upd by assumption; destruct (Nat.eq_dec _ _); subst; try congruence; try reflexivity; try use H).
Notation body_at w i := (nth i (w_bodies w) NewTxBody).
Lemma same_inputs w i x m : (i < length (w_bodies w))%nat -> same m (mem_of w) -> same (set m (LInputs i) (Inputs (body_at w i) ++ x)) (mem_of (put_body w i (add_inputs (body_at w i) x))).
Proof. intros Hi H. one_field H. Qed.
Lemma same_outputs w i x m : (i < length (w_bodies w))%nat -> same m (mem_of w) -> same (set m (LOutputs i) (Outputs (body_at w i) ++ x)) (mem_of (put_body w i (add_outputs (body_at w i) x))).
Proof. intros Hi H. one_field H. Qed.
Lemma same_fee w i x m : (i < length (w_bodies w))%nat -> same m (mem_of w) -> same (set m (LFee i) x) (mem_of (put_body w i (set_fee (body_at w i) x))).
Proof. intros Hi H. one_field H. Qed.
Lemma same_ttl w i x m : (i < length (w_bodies w))%nat -> same m (mem_of w) -> same (set m (LTTL i) x) (mem_of (put_body w i (set_ttl (body_at w i) x))).
Proof. intros Hi H. one_field H. Qed.
Lemma same_aux w i x m : (i < length (w_bodies w))%nat -> same m (mem_of w) -> same (set m (LAux i) x) (mem_of (put_body w i (set_aux (body_at w i) x))).
Proof. intros Hi H. one_field H. Qed.
Lemma same_wit w i x m : (i < length (w_wits w))%nat -> same m (mem_of w) -> same (set m (LWitness i) x) (mem_of (put_wit w i x)).
Proof. intros Hi H. one_field H. Qed.
Lemma same_meta w t x m : (t < length (w_txs w))%nat -> same m (mem_of w) -> same (set m (LTMeta t) x) (mem_of (set_metadata w t x)).
Proof. intros Hi H. unfold set_metadata. one_field H. Qed.

Lemma put_same_body w t : put_body w (o_body (obj w t)) (Body (load w t)) = w.
Proof. destruct w as [x1 x2 x3 x4 x5 x6]. unfold put_body, load. cbn [Body w_bodies w_txs w_wits w_arrays w_builders w_clock]. rewrite upd_id. reflexivity. Qed.
Lemma calc_run w n t {A} (k : Tx -> result A) : Inv w -> (t < length (w_txs w))%nat ->
  same (final (calc n t) (mem_of w)) (mem_of (put_body w (o_body (obj w t)) (fst (after_aux n (load w t) k)))) /\
  answer (calc n t) (mem_of w) = match calc_aux n (load w t) with Ok _ => Ok tt | Err e => Err e | Panic => Panic end.
Proof.
  intros I Ht. destruct (inv_txs w I t Ht) as [Hb Hw]. unfold calc, after_aux, calc_aux. assert (EM : Metadata (load w t) = o_meta (obj w t)) by reflexivity. rewrite EM. cbn [answer final mem_of].
  destruct (o_meta (obj w t)) as [md |]; cbn [answer final fst bind].
  - destruct (enc_md (map_order n md)) as [s | e |]; cbn [answer final fst bind mem_of].
    + split; [| reflexivity]. apply (same_aux w); [exact Hb | apply same_refl].
    + split; [| reflexivity]. rewrite put_same_body. apply same_refl.
    + split; [| reflexivity]. rewrite put_same_body. apply same_refl.
  - split; [| reflexivity]. rewrite put_same_body. apply same_refl.
Qed.
Lemma marshal_run w m n t : same m (mem_of w) -> answer (marshal n t) m = tx_marshal n (load w t) /\ final (marshal n t) m = m.
Proof.
  intros H. unfold marshal, read_body. cbn [seq_prog answer final]. split; [| reflexivity].
  rewrite (H (LTBody t) (fun x => x)), (H (LTWit t) (fun x => x)), (H (LTValid t) (fun x => x)), (H (LTMeta t) (fun x => x)).
  cbn [mem_of]. rewrite (H (LInputs _) (fun x => x)), (H (LOutputs _) (fun x => x)), (H (LFee _) (fun x => x)), (H (LTTL _) (fun x => x)), (H (LAux _) (fun x => x)), (H (LWitness _) (fun x => x)).
  cbn [mem_of]. unfold load. f_equal. f_equal. destruct (nth (o_body (obj w t)) (w_bodies w) NewTxBody). reflexivity.
Qed.

Lemma load_own w t b : Inv w -> (t < length (w_txs w))%nat -> load (put_body w (o_body (obj w t)) b) t = with_body (load w t) b.
Proof. intros I Ht. rewrite load_put_body by assumption. destruct (Nat.eq_dec _ _); [reflexivity | congruence]. Qed.
Lemma body_run w m b : same m (mem_of w) -> answer (read_body b) m = body_at w b /\ final (read_body b) m = m.
Proof.
  intros H. unfold read_body. cbn [answer final]. rewrite (H (LInputs _) (fun x => x)), (H (LOutputs _) (fun x => x)), (H (LFee _) (fun x => x)), (H (LTTL _) (fun x => x)), (H (LAux _) (fun x => x)). cbn [mem_of].
  split; [| reflexivity]. destruct (body_at w b). reflexivity.
Qed.
Ltac split_calc Ec := match goal with |- context [calc_aux ?n ?t] => destruct (calc_aux n t) as [?b | ?e |] eqn:Ec end.
Lemma bytes_run w n t : Inv w -> (t < length (w_txs w))%nat ->
  same (final (bytes_call n t) (mem_of w)) (mem_of (put_body w (o_body (obj w t)) (fst (tx_bytes n (load w t))))) /\ answer (bytes_call n t) (mem_of w) = snd (tx_bytes n (load w t)).
Proof.
  intros I Ht. destruct (calc_run w n t (tx_marshal (S n)) I Ht) as [F A]. unfold bytes_call. rewrite final_seq, answer_seq, A. unfold tx_bytes, after_aux in *. split_calc Ec; cbn [fst snd answer final] in *; [| auto | auto].
  destruct (marshal_run _ _ (S n) t F) as [A' F']. rewrite A', F'. rewrite load_own by assumption. auto.
Qed.
Lemma fee_run w n l t : Inv w -> (t < length (w_txs w))%nat ->
  same (final (fee_call n l t) (mem_of w)) (mem_of (put_body w (o_body (obj w t)) (fst (tx_fee n l (load w t))))) /\ answer (fee_call n l t) (mem_of w) = snd (tx_fee n l (load w t)).
Proof.
  intros I Ht. destruct (calc_run w n t (fun t' => do txCbor <- tx_marshal (S n) t'; Ok (u64 (TxFeeFixed l + u64 (TxFeePerByte l * zlen txCbor)))) I Ht) as [F A]. unfold fee_call. rewrite final_seq, answer_seq, A. unfold tx_fee, after_aux in *. split_calc Ec; cbn [fst snd answer final] in *; [| auto | auto].
  rewrite final_seq, answer_seq. destruct (marshal_run _ _ (S n) t F) as [A' F']. rewrite A', F'. rewrite load_own by assumption. cbn [answer final]. auto.
Qed.
Lemma hash_run w n t : Inv w -> (t < length (w_txs w))%nat ->
  same (final (hash_call n t) (mem_of w)) (mem_of (put_body w (o_body (obj w t)) (fst (tx_hash n (load w t))))) /\ answer (hash_call n t) (mem_of w) = snd (tx_hash n (load w t)).
Proof.
  intros I Ht. destruct (calc_run w n t (fun t' => do b <- body_marshal (Body t'); Ok (blake2b256 b)) I Ht) as [F A]. unfold hash_call. rewrite final_seq, answer_seq, A. unfold tx_hash, after_aux in *. split_calc Ec; cbn [fst snd answer final] in *; [| auto | auto].
  rewrite final_seq, answer_seq. destruct (body_run _ _ (final (calc n t) (mem_of w) (LTBody t)) F) as [A' F']. rewrite A', F'. cbn [answer final]. split; [exact F |].
  rewrite (F (LTBody t) (fun x => x)). cbn [mem_of]. change (o_body (obj (put_body w (o_body (obj w t)) b) t)) with (o_body (obj w t)). cbn [put_body w_bodies]. rewrite nth_upd_same by (apply inv_txs; assumption). reflexivity.
Qed.
Lemma min_fee_ext n l t t' : Inputs (Body t) = Inputs (Body t') -> Outputs (Body t) = Outputs (Body t') -> Fee (Body t) = Fee (Body t') -> TTL (Body t) = TTL (Body t') ->
  Witness t = Witness t' -> Metadata t = Metadata t' -> min_fee n l t = min_fee n l t'.
Proof. intros E1 E2 E3 E4 E5 E6. unfold min_fee, total_inputs, total_outputs, placeholder_amount, total_inputs, total_outputs. rewrite E1, E2, E3, E4, E5, E6. reflexivity. Qed.
Lemma min_fee_wit n l t : snd (min_fee n l t) = match Witness t with [] => [placeholder_witness] | w => w end.
Proof. unfold min_fee. cbv zeta. destruct (tx_fee _ _ _) as [b r]. destruct (tx_fee _ _ _) as [b' r']. reflexivity. Qed.
Lemma min_fee_run w n room b : Inv w -> (b < length (w_builders w))%nat ->
  same (final (min_fee_call n room b) (mem_of w)) (mem_of (put_wit w (o_wit (obj w (b_tx (bld w b)))) (snd (min_fee n (b_fees (bld w b)) (builder_tx w b))))) /\
  answer (min_fee_call n room b) (mem_of w) = fst (min_fee n (b_fees (bld w b)) (builder_tx w b)).
Proof.
  intros I Hb. destruct (inv_builders w I b Hb) as (Ht & _ & _). destruct (inv_txs w I _ Ht) as [_ Hw]. unfold min_fee_call. cbn [answer final mem_of].
  set (tx := Build_Tx _ _ _ _). assert (E : min_fee n (b_fees (bld w b)) tx = min_fee n (b_fees (bld w b)) (builder_tx w b)) by (apply min_fee_ext; reflexivity).
  rewrite min_fee_wit. rewrite <- E. unfold builder_tx, load at 1. cbn [Witness]. set (x := o_wit (obj w (b_tx (bld w b)))) in *. fold x in Hw. clearbody tx. clear E.
  assert (Id : put_wit w x (nth x (w_wits w) []) = w) by (destruct w as [x1 x2 x3 x4 x5 x6]; unfold put_wit; cbn [w_bodies w_txs w_wits w_arrays w_builders w_clock]; rewrite upd_id; reflexivity).
  pose proof (same_wit w x [placeholder_witness] (mem_of w) Hw (same_refl _)) as SW.
  destruct (nth x (w_wits w) []) as [| y r] eqn:EW; destruct (room && _); cbn [answer final]; (split; [| reflexivity]).
  - apply same_set_room. exact SW.
  - exact SW.
  - apply same_set_room. rewrite Id. apply same_refl.
  - rewrite Id. apply same_refl.
Qed.

Lemma read_run w m a n : forall i, same m (mem_of w) -> (i + n <= length (nth a (w_arrays w) []))%nat ->
  answer (read_keys a i n) m = firstn n (skipn i (nth a (w_arrays w) [])) /\ final (read_keys a i n) m = m.
Proof.
  induction n as [| n IH]; intros i H L; cbn [read_keys answer final]; [auto |]. rewrite final_seq, answer_seq. destruct (IH (S i) H ltac:(lia)) as [A F]. rewrite A, F. cbn [answer final]. split; [| reflexivity].
  rewrite (H (LKey a i) (fun x => x)). cbn [mem_of]. set (l := nth a (w_arrays w) []) in *. clearbody l. assert (Li : (i < length l)%nat) by lia. clear - Li.
  revert i Li. induction l as [| x l IH]; intros i Li; [cbn in Li; lia |]. destruct i; [reflexivity |]. change (nth i l [] :: firstn n (skipn (S i) l) = firstn (S n) (skipn i l)). apply IH. cbn [length] in Li. lia.
Qed.
Lemma add_outputs_run w m room t l : same m (mem_of w) -> Inv w -> (t < length (w_txs w))%nat ->
  same (final (add_outputs_call room t l) m) (mem_of (put_body w (o_body (obj w t)) (add_outputs (Body (load w t)) l))).
Proof.
  intros H I Ht. destruct (inv_txs w I t Ht) as [Hb _]. unfold add_outputs_call. cbn [answer final]. rewrite (H (LTBody t) (fun x => x)). cbn [mem_of]. rewrite (H (LOutputs _) (fun x => x)). cbn [mem_of].
  destruct room; cbn [final]; apply (same_outputs w); try exact Hb; try exact H. apply same_set_room. exact H.
Qed.
Lemma add_change_run w n room b addr : Inv w -> (b < length (w_builders w))%nat ->
  same (final (add_change_call n room b addr) (mem_of w))
       (mem_of (put_body (put_wit w (o_wit (obj w (b_tx (bld w b)))) (snd (min_fee n (b_fees (bld w b)) (builder_tx w b)))) (o_body (obj w (b_tx (bld w b))))
                         (add_change (Body (builder_tx w b)) (fst (min_fee n (b_fees (bld w b)) (builder_tx w b))) addr))).
Proof.
  intros I Hb. destruct (inv_builders w I b Hb) as (Ht & _ & _). destruct (inv_txs w I _ Ht) as [Hbd _]. destruct (min_fee_run w n room b I Hb) as [F A]. unfold add_change_call. rewrite final_seq, A.
  set (m1 := final (min_fee_call n room b) (mem_of w)) in *. set (f := fst (min_fee n _ _)) in *. set (w1 := put_wit w _ _) in *. clearbody m1 f. cbn [final].
  rewrite (F (LBTx b) (fun x => x)). cbn [mem_of]. change (b_tx (bld w1 b)) with (b_tx (bld w b)). rewrite (F (LTBody _) (fun x => x)). cbn [mem_of]. change (o_body (obj w1 (b_tx (bld w b)))) with (o_body (obj w (b_tx (bld w b)))).
  set (t := b_tx (bld w b)) in *. set (bd := o_body (obj w t)) in *.
  assert (F1 : same (set m1 (LFee bd) f) (mem_of (put_body w1 bd (set_fee (body_at w1 bd) f)))) by (apply same_fee; [exact Hbd | exact F]).
  set (w2 := put_body w1 bd (set_fee (body_at w1 bd) f)) in *. rewrite (F1 (LInputs bd) (fun x => x)), (F1 (LOutputs bd) (fun x => x)). cbn [mem_of].
  assert (B2 : body_at w2 bd = set_fee (Body (load w t)) f) by (apply nth_upd_same; exact Hbd).
  eapply same_trans; [apply (add_outputs_run w2); [exact F1 | apply inv_put_body, inv_put_wit, I | exact Ht] |].
  change (o_body (obj w2 t)) with bd. assert (L2 : Body (load w2 t) = body_at w2 bd) by reflexivity. rewrite L2, B2.
  assert (E : put_body w2 bd (add_outputs (set_fee (Body (load w t)) f) [{| OutAddress := addr; OutAmount := change_amount {| Inputs := Inputs (set_fee (Body (load w t)) f); Outputs := Outputs (set_fee (Body (load w t)) f); Fee := f; TTL := 0; AuxHash := [] |} |}])
            = put_body w1 bd (add_change (Body (builder_tx w b)) f addr)).
  { unfold put_body. cbn [w2 put_body w_bodies w_txs w_wits w_arrays w_builders w_clock]. rewrite upd_upd. reflexivity. }
  rewrite E. apply same_refl.
Qed.
Lemma write_other l : forall a i m (x : loc), (forall j, x <> LKey a j) -> final (write_keys a i l) m x = m x.
Proof. induction l as [| k l IH]; intros a i m x N; cbn [write_keys final]; [reflexivity |]. rewrite IH by exact N. apply set_other. intros <-. exact (N i eq_refl). Qed.
Lemma write_keys_run l : forall a i m j, final (write_keys a i l) m (LKey a j) = if ((i <=? j) && (j <? i + length l))%nat%bool then nth (j - i) l [] else m (LKey a j).
Proof.
  induction l as [| k l IH]; intros a i m j; cbn [write_keys final length].
  - destruct (Nat.leb_spec i j), (Nat.ltb_spec j (i + 0)); cbn [andb]; try reflexivity. lia.
  - rewrite IH. destruct (Nat.eq_dec i j) as [<- | N].
    + rewrite set_same, Nat.sub_diag. destruct (Nat.leb_spec (S i) i); [lia |]. cbn [andb]. destruct (Nat.leb_spec i i), (Nat.ltb_spec i (i + S (length l))); try lia. reflexivity.
    + rewrite set_other by congruence. destruct (Nat.leb_spec (S i) j), (Nat.leb_spec i j), (Nat.ltb_spec j (S i + length l)), (Nat.ltb_spec j (i + S (length l))); cbn [andb]; try lia; try reflexivity.
      replace (j - i)%nat with (S (j - S i)) by lia. reflexivity.
Qed.
Lemma sign_run w b k : Inv w -> (b < length (w_builders w))%nat -> same (final (sign_call (length (w_arrays w)) b k) (mem_of w)) (mem_of (sign_with w b k)).
Proof.
  intros I Hb. destruct (inv_builders w I b Hb) as (_ & _ & SI). destruct SI as [SA SL]. unfold sign_call, sign_with. cbn [final mem_of]. set (s := b_keys (bld w b)) in *. destruct (s_off s + s_len s <? length (nth (s_arr s) (w_arrays w) []))%nat eqn:Q; cbn [final].
  - apply Nat.ltb_lt in Q. cells; cbn [mem_of put_builder put_array w_arrays w_bodies w_txs w_wits w_builders] in *; unfold obj, bld; cbn [put_builder put_array w_arrays w_bodies w_txs w_wits w_builders]; look; cbn [mem_of];
      try (rewrite nth_upd by assumption; destruct (Nat.eq_dec _ _); subst); try congruence; try reflexivity.
    + rewrite upd_length. reflexivity.
    + rewrite nth_upd by exact Q. destruct (Nat.eq_dec _ _); congruence.
    + rewrite nth_upd by exact Q. destruct (Nat.eq_dec _ _); [congruence | reflexivity].
  - rewrite final_seq. destruct (read_run w (mem_of w) (s_arr s) (s_len s) (s_off s) (same_refl _) SL) as [-> ->]. fold (slice_keys w s).
    rewrite final_seq. cbn [final]. set (ks := slice_keys w s). assert (LK : length ks = s_len s) by (unfold ks, slice_keys; rewrite firstn_length, skipn_length; lia).
    set (a' := length (w_arrays w)).
    cells; cbn [mem_of put_builder new_array w_arrays w_bodies w_txs w_wits w_builders] in *; unfold obj, bld; cbn [put_builder new_array w_arrays w_bodies w_txs w_wits w_builders]; look; cbn [mem_of];
      try (rewrite nth_upd by assumption; destruct (Nat.eq_dec _ _); subst); try (rewrite write_other by (intros ? Q'; discriminate Q')); try congruence; try reflexivity.
    all: cbn [mem_of]; try rewrite nth_snoc.
    + fold a'. destruct (Nat.eq_dec a' a'); [| congruence]. rewrite !app_length, repeat_length. cbn [length]. lia.
    + fold a'. destruct (Nat.eq_dec a' a); [congruence | reflexivity].
    + fold a'. destruct (Nat.eq_dec a' a) as [<- | N]; [| rewrite write_other by congruence; reflexivity].
      rewrite write_keys_run. cbn [Nat.leb andb]. rewrite Nat.sub_0_r. destruct (i <? _)%nat eqn:Li.
      * apply Nat.ltb_lt in Li. rewrite app_assoc, (app_nth1 (ks ++ [k]) (repeat _ _)) by exact Li. reflexivity.
      * apply Nat.ltb_ge in Li. cbn [mem_of]. rewrite (nth_overflow (w_arrays w)) by (unfold a'; lia). rewrite app_assoc, (app_nth2 (ks ++ [k]) (repeat _ _)) by exact Li. destruct i; cbn [nth]; rewrite nth_repeat; reflexivity.
Qed.

Lemma make_run w keys spare room : same (final (call (env_of w room) (OMakeKeys keys spare)) (mem_of w)) (mem_of (make_keys w keys spare)).
Proof.
  cbn [call env_of e_array]. rewrite final_seq. cbn [final]. set (a' := length (w_arrays w)). unfold make_keys.
  cells; cbn [mem_of new_array w_arrays w_bodies w_txs w_wits w_builders] in *; unfold obj, bld; cbn [new_array w_arrays w_bodies w_txs w_wits w_builders]; look; cbn [mem_of];
    try (rewrite write_other by (intros ? Q'; discriminate Q')); try reflexivity; try rewrite nth_snoc; fold a'.
  - destruct (Nat.eq_dec a' a'); [| congruence]. rewrite app_length, repeat_length. reflexivity.
  - destruct (Nat.eq_dec a' a); [congruence | reflexivity].
  - destruct (Nat.eq_dec a' a) as [<- | N]; [| rewrite write_other by congruence; reflexivity].
    rewrite write_keys_run. cbn [Nat.leb andb Nat.add]. rewrite Nat.sub_0_r. destruct (i <? _)%nat eqn:Li.
    + apply Nat.ltb_lt in Li. rewrite app_nth1 by exact Li. reflexivity.
    + apply Nat.ltb_ge in Li. cbn [mem_of]. rewrite (nth_overflow (w_arrays w)) by (unfold a'; lia). rewrite app_nth2 by exact Li. rewrite nth_repeat. destruct i; reflexivity.
Qed.
Lemma new_run w fees s room : same (final (call (env_of w room) (ONewBuilder fees s)) (mem_of w)) (mem_of (new_tx_builder w fees s)).
Proof.
  cbn [call env_of]. rewrite final_seq. unfold new_builder_call. cbn [final env_of e_body e_wit e_tx e_builder]. unfold new_tx_builder.
  cells; cbn [mem_of new_builder new_tx new_wit new_body w_arrays w_bodies w_txs w_wits w_builders] in *; unfold obj, bld; cbn [new_builder new_tx new_wit new_body w_arrays w_bodies w_txs w_wits w_builders];
    look; cbn [mem_of]; try reflexivity; rewrite nth_snoc; destruct (Nat.eq_dec _ _); try congruence; try reflexivity; subst; congruence.
Qed.
Lemma build_run w b : Inv w -> (b < length (w_builders w))%nat ->
  same (final (build_call (w_clock w) (length (w_wits w)) (length (w_txs w)) b) (mem_of w)) (mem_of (fst (build w b))) /\
  answer (build_call (w_clock w) (length (w_wits w)) (length (w_txs w)) b) (mem_of w) = snd (build w b).
Proof.
  intros I Hb. destruct (inv_builders w I b Hb) as (Ht & _ & SI). destruct (inv_txs w I _ Ht) as [Hbd _]. unfold build_call. cbn [answer final mem_of]. set (t := b_tx (bld w b)) in *.
  rewrite final_seq, answer_seq. destruct (hash_run w (w_clock w) t I Ht) as [F A]. rewrite A. unfold build. fold t. rewrite run_hash_eq. cbn [fst snd].
  set (w1 := tick (put_body w (o_body (obj w t)) (fst (tx_hash (w_clock w) (load w t)))) 1) in *. assert (F1 : same (final (hash_call (w_clock w) t) (mem_of w)) (mem_of w1)) by (eapply same_trans; [exact F | apply same_refl]).
  set (m1 := final (hash_call (w_clock w) t) (mem_of w)) in *. clearbody m1. clear F. destruct (snd (tx_hash (w_clock w) (load w t))) as [h | e |]; cbn [answer final fst snd]; [| auto | auto].
  rewrite !(F1 (LBKeys b) (fun x => x)). cbn [mem_of]. change (bld w1 b) with (bld w b). set (s := b_keys (bld w b)) in *. destruct SI as [SA SL].
  destruct (read_run w1 m1 (s_arr s) (s_len s) (s_off s) F1 SL) as [AR FR]. rewrite final_seq, answer_seq, AR, FR. fold (slice_keys w1 s).
  destruct (sign_all (slice_keys w1 s) h) as [ws | e |]; cbn [answer final fst snd]; [| auto | auto]. split; [| reflexivity].
  assert (Lt : length (w_txs w1) = length (w_txs w)) by reflexivity. assert (Lw : length (w_wits w1) = length (w_wits w)) by reflexivity. rewrite <- Lt, <- Lw. rewrite <- Lt in Ht.
  clearbody w1. clear - F1 Ht.
  assert (N : t <> length (w_txs w1)) by lia. set (m2 := set (set m1 (LWitness (length (w_wits w1))) ws) (LTWit t) (length (w_wits w1))).
  assert (B : m2 (LTBody t) = o_body (obj w1 t)) by (unfold m2; rewrite !set_other by discriminate; exact (F1 (LTBody t) (fun x => x))).
  assert (V : m2 (LTValid t) = o_valid (obj w1 t)) by (unfold m2; rewrite !set_other by discriminate; exact (F1 (LTValid t) (fun x => x))).
  assert (M : m2 (LTMeta t) = o_meta (obj w1 t)) by (unfold m2; rewrite !set_other by discriminate; exact (F1 (LTMeta t) (fun x => x))).
  rewrite B, V, M. unfold m2. clear B V M m2.
  cells; cbn [mem_of new_tx put_tx new_wit w_arrays w_bodies w_txs w_wits w_builders] in *; unfold obj, bld in *; cbn [new_tx put_tx new_wit w_arrays w_bodies w_txs w_wits w_builders] in *;
    look; cbn [mem_of]; rewrite ?nth_snoc, ?upd_length; repeat (destruct (Nat.eq_dec _ _)); subst; try congruence; try reflexivity; try use F1;
    rewrite ?nth_upd by assumption; repeat (destruct (Nat.eq_dec _ _)); subst; try congruence; try reflexivity; try use F1.
Qed.
End Faithful.

(** The sequences of accesses are those of the calls: a call that runs alone leaves the memory and gives the reply of Model/Builder.v. *)
Theorem C116_faithful : forall (C : TxCrypto) (MO : MapOrder) w o room, reachable w -> valid_op w o ->
  (forall l, ~ is_room l -> final (call (env_of w room) o) (mem_of w) l = mem_of (step w o) l) /\ answer (call (env_of w room) o) (mem_of w) = reply_of w o.
Proof.
  intros C MO w o room Rw V. pose proof (reachable_inv w Rw) as I. destruct o; cbn [valid_op step reply_of] in *.
  - split; [apply make_run |]. cbn [call]. rewrite answer_seq. reflexivity.
  - split; [apply new_run |]. cbn [call]. rewrite answer_seq. reflexivity.
  - cbn [call env_of e_array]. rewrite final_seq, answer_seq. split; [apply sign_run; assumption | reflexivity].
  - cbn [call]. rewrite final_seq, answer_seq. split; [| reflexivity]. apply (same_inputs w); [apply inv_txs; assumption | apply same_refl].
  - cbn [call]. rewrite final_seq, answer_seq. split; [| reflexivity]. apply (add_outputs_run w); [apply same_refl | exact I | exact V].
  - cbn [call]. rewrite final_seq, answer_seq. split; [| reflexivity]. apply (same_fee w); [apply inv_txs; assumption | apply same_refl].
  - cbn [call final answer]. split; [| reflexivity]. destruct (inv_builders w I b V) as (Ht & _). apply (same_ttl w); [apply inv_txs; assumption | apply same_refl].
  - cbn [call final answer]. split; [| reflexivity]. apply same_meta; [exact V | apply same_refl].
  - cbn [call env_of e_clock]. rewrite final_seq, answer_seq. destruct (bytes_run w (w_clock w) t I V) as [F A]. rewrite A. cbn [final answer]. unfold run_bytes. destruct (tx_bytes _ _) as [b r]. split; [exact F | reflexivity].
  - cbn [call env_of e_clock]. rewrite final_seq, answer_seq. destruct (hash_run w (w_clock w) t I V) as [F A]. rewrite A. cbn [final answer]. unfold run_hash. destruct (tx_hash _ _) as [b r]. split; [exact F | reflexivity].
  - cbn [call env_of e_clock]. rewrite final_seq, answer_seq. destruct (fee_run w (w_clock w) lfee t I V) as [F A]. rewrite A. cbn [final answer]. unfold run_fee. destruct (tx_fee _ _) as [b r]. split; [exact F | reflexivity].
  - cbn [call env_of e_clock e_room]. rewrite final_seq, answer_seq. destruct (min_fee_run w (w_clock w) room b I V) as [F A]. rewrite A. cbn [final answer]. rewrite run_min_fee_eq. split; [exact F | reflexivity].
  - cbn [call env_of e_clock e_room]. rewrite final_seq, answer_seq. split; [| reflexivity]. pose proof (add_change_run w (w_clock w) room b addr I V) as F. rewrite add_change_eq. exact F.
  - cbn [call env_of e_clock e_wit e_tx]. rewrite final_seq, answer_seq. destruct (build_run w b I V) as [F A]. rewrite A. split; [exact F | reflexivity].
Qed.
Print Assumptions C116_faithful.

(** ** What a call touches *)
Section Touch.
Context {C : TxCrypto} {MO : MapOrder}.
Definition place (x : access) : loc := match x with R l => l | W l => l end.
Definition within {A} (P : loc -> Prop) (p : prog A) (m : mem) : Prop := forall x, In x (log p m) -> P (place x).
Lemma within_ret {A} (P : loc -> Prop) (a : A) (m : mem) : within P (Ret a) m. Proof. intros x []. Qed.
Lemma within_rd {A} (P : loc -> Prop) l (k : val l -> prog A) (m : mem) : P l -> within P (k (m l)) m -> within P (Rd l k) m.
Proof. intros H K x [<- | X]; [exact H | apply K; exact X]. Qed.
Lemma within_wr {A} (P : loc -> Prop) l v (p : prog A) (m : mem) : P l -> within P p (set m l v) -> within P (Wr l v p) m.
Proof. intros H K x [<- | X]; [exact H | apply K; exact X]. Qed.
Lemma within_seq {A B} (P : loc -> Prop) (p : prog A) (f : A -> prog B) (m : mem) : within P p m -> within P (f (answer p m)) (final p m) -> within P (seq_prog p f) m.
Proof. intros H K x X. rewrite log_seq in X. apply in_app_or in X as [X | X]; [apply H | apply K]; exact X. Qed.

(** The fields of a transaction and of its body. *)
Definition of_tx (P : loc -> Prop) (t b x : nat) : Prop :=
  P (LTBody t) /\ P (LTWit t) /\ P (LTValid t) /\ P (LTMeta t) /\ P (LInputs b) /\ P (LOutputs b) /\ P (LFee b) /\ P (LTTL b) /\ P (LAux b) /\ P (LRoom b) /\ P (LWitness x).
Lemma within_calc (P : loc -> Prop) n t b x (m : mem) : of_tx P t b x -> m (LTBody t) = b -> within P (calc n t) m.
Proof.
  intros (H1 & H2 & H3 & H4 & H5 & H6 & H7 & H8 & H9 & H10 & H11) E. apply within_rd; [exact H4 |]. destruct (m (LTMeta t)) as [md |]; [| apply within_ret]. destruct (enc_md _); try apply within_ret.
  apply within_rd; [exact H1 |]. apply within_wr; [rewrite E; exact H9 | apply within_ret].
Qed.
Lemma calc_keeps n t (m : mem) l : (forall b, l <> LAux b) -> final (calc n t) m l = m l.
Proof.
  intros N. unfold calc. cbn [final]. destruct (m (LTMeta t)) as [md |]; [| reflexivity]. destruct (enc_md _); try reflexivity. cbn [final]. apply set_other. intros E. exact (N _ (eq_sym E)).
Qed.
Lemma within_body (P : loc -> Prop) t b x (m : mem) : of_tx P t b x -> within P (read_body b) m.
Proof. intros (H1 & H2 & H3 & H4 & H5 & H6 & H7 & H8 & H9 & H10 & H11). unfold read_body. repeat (apply within_rd; [assumption |]). apply within_ret. Qed.
Lemma within_marshal (P : loc -> Prop) n t b x (m : mem) : of_tx P t b x -> m (LTBody t) = b -> m (LTWit t) = x -> within P (marshal n t) m.
Proof.
  intros H E1 E2. pose proof H as (H1 & H2 & H3 & H4 & H5 & H6 & H7 & H8 & H9 & H10 & H11). apply within_rd; [exact H1 |]. rewrite E1. apply within_seq; [apply (within_body P t b x); exact H |].
  change (final (read_body b) m) with m. apply within_rd; [exact H2 |]. rewrite E2. apply within_rd; [exact H11 |]. repeat (apply within_rd; [assumption |]). apply within_ret.
Qed.
Lemma within_bytes (P : loc -> Prop) n t b x (m : mem) : of_tx P t b x -> m (LTBody t) = b -> m (LTWit t) = x -> within P (bytes_call n t) m.
Proof.
  intros H E1 E2. apply within_seq; [apply (within_calc P n t b x); assumption |]. destruct (answer _ _); try apply within_ret. apply (within_marshal P _ t b x); [exact H | |]; rewrite calc_keeps by discriminate; assumption.
Qed.
Lemma within_fee (P : loc -> Prop) n l t b x (m : mem) : of_tx P t b x -> m (LTBody t) = b -> m (LTWit t) = x -> within P (fee_call n l t) m.
Proof.
  intros H E1 E2. apply within_seq; [apply (within_calc P n t b x); assumption |]. destruct (answer _ _); try apply within_ret. apply within_seq; [| apply within_ret]. apply (within_marshal P _ t b x); [exact H | |]; rewrite calc_keeps by discriminate; assumption.
Qed.
Lemma within_hash (P : loc -> Prop) n t b x (m : mem) : of_tx P t b x -> m (LTBody t) = b -> within P (hash_call n t) m.
Proof.
  intros H E1. apply within_seq; [apply (within_calc P n t b x); assumption |]. destruct (answer _ _); try apply within_ret. apply within_rd; [apply H |]. rewrite calc_keeps by discriminate. rewrite E1. apply within_seq; [| apply within_ret]. apply (within_body P t b x); exact H.
Qed.
Lemma hash_keeps n t (m : mem) l : (forall b, l <> LAux b) -> final (hash_call n t) m l = m l.
Proof.
  intros N. unfold hash_call. rewrite final_seq. destruct (answer _ _); cbn [final]; try (apply calc_keeps; exact N).
Qed.
Lemma within_add_outputs (P : loc -> Prop) room t b x l (m : mem) : of_tx P t b x -> m (LTBody t) = b -> within P (add_outputs_call room t l) m.
Proof.
  intros (H1 & H2 & H3 & H4 & H5 & H6 & H7 & H8 & H9 & H10 & H11) E. apply within_rd; [exact H1 |]. rewrite E. apply within_rd; [exact H6 |]. destruct room; repeat (apply within_wr; [assumption |]); apply within_ret.
Qed.
Lemma within_min_fee (P : loc -> Prop) n room bl t b x (m : mem) : of_tx P t b x -> P (LBTx bl) -> P (LBFees bl) -> m (LBTx bl) = t -> m (LTBody t) = b -> m (LTWit t) = x -> within P (min_fee_call n room bl) m.
Proof.
  intros (H1 & H2 & H3 & H4 & H5 & H6 & H7 & H8 & H9 & H10 & H11) K1 K2 E1 E2 E3. apply within_rd; [exact K1 |]. rewrite E1. apply within_rd; [exact H1 |]. rewrite E2. do 4 (apply within_rd; [assumption |]). apply within_rd; [assumption |]. rewrite E3. do 3 (apply within_rd; [assumption |]). cbv zeta.
  destruct (m (LWitness x)); [apply within_wr; [assumption |] |]; (destruct (room && _); [apply within_wr; [assumption | apply within_ret] | apply within_ret]).
Qed.
Lemma min_fee_keeps n room bl (m : mem) l : (forall x, l <> LWitness x) -> (forall b, l <> LRoom b) -> final (min_fee_call n room bl) m l = m l.
Proof.
  intros N N'. unfold min_fee_call. cbn [final]. destruct (m (LWitness _)); destruct (room && _); cbn [final]; rewrite ?set_other; try reflexivity; intros E; first [exact (N _ (eq_sym E)) | exact (N' _ (eq_sym E))].
Qed.
Lemma within_read_keys (P : loc -> Prop) a n : forall i m, (forall j, P (LKey a j)) -> within P (read_keys a i n) m.
Proof. induction n as [| n IH]; intros i m H; [apply within_ret |]. apply within_rd; [apply H |]. apply within_seq; [apply IH; exact H | apply within_ret]. Qed.
Lemma within_write_keys (P : loc -> Prop) a l : forall i m, (forall j, P (LKey a j)) -> within P (write_keys a i l) m.
Proof. induction l as [| k l IH]; intros i m H; [apply within_ret |]. apply within_wr; [apply H |]. apply IH; exact H. Qed.
Lemma read_keeps a n : forall i m, final (read_keys a i n) m = m.
Proof. induction n as [| n IH]; intros i m; [reflexivity |]. cbn [read_keys final]. rewrite final_seq, IH. reflexivity. Qed.

(** Everything a call touches belongs to its builder, or is fresh. *)
Definition owned (w : World) (o : op) (e : env) (l : loc) : Prop :=
  match l with
  | LBTx b | LBKeys b | LBFees b => ((b < length (w_builders w))%nat /\ owner w o = Some b) \/ b = e_builder e
  | LTBody t | LTWit t | LTValid t | LTMeta t => ((t < length (w_txs w))%nat /\ owner w o = Some (o_body (obj w t))) \/ t = e_tx e
  | LInputs b | LOutputs b | LFee b | LTTL b | LAux b | LRoom b => ((b < length (w_bodies w))%nat /\ owner w o = Some b) \/ b = e_body e
  | LWitness x => (exists t, (t < length (w_txs w))%nat /\ o_wit (obj w t) = x /\ owner w o = Some (o_body (obj w t))) \/ x = e_wit e
  | LCap a | LKey a _ => (exists b, (b < length (w_builders w))%nat /\ owner w o = Some b /\ a = s_arr (b_keys (bld w b))) \/ a = e_array e
  end.
Lemma touched w o e : Inv w -> valid_op w o -> within (owned w o e) (call e o) (mem_of w).
Proof.
  intros I V.
  assert (T : forall t, (t < length (w_txs w))%nat -> owner w o = Some (o_body (obj w t)) -> of_tx (owned w o e) t (o_body (obj w t)) (o_wit (obj w t))).
  { intros t Ht O. destruct (inv_txs w I t Ht) as [Hb Hw]. unfold of_tx. cbn [owned]. repeat split; try (left; split; assumption). left. exists t. auto. }
  assert (BT : forall b, (b < length (w_builders w))%nat -> owner w o = Some b -> of_tx (owned w o e) (b_tx (bld w b)) (o_body (obj w (b_tx (bld w b)))) (o_wit (obj w (b_tx (bld w b))))).
  { intros b Hb O. destruct (inv_builders w I b Hb) as (Ht & E & _). apply T; [exact Ht |]. rewrite E. exact O. }
  destruct o; cbn [valid_op call] in *.
  - apply within_seq; [apply within_write_keys; intros j; right; reflexivity |]. apply within_wr; [right; reflexivity | apply within_ret].
  - apply within_seq; [| apply within_ret]. unfold new_builder_call. repeat (apply within_wr; [right; reflexivity |]). apply within_ret.
  - apply within_seq; [| apply within_ret]. assert (A : forall j, owned w (OSign b key) e (LKey (s_arr (b_keys (bld w b))) j)) by (intros j; left; exists b; auto).
    apply within_rd; [left; auto |]. cbn [mem_of]. apply within_rd; [left; exists b; auto |]. destruct (_ <? _)%nat.
    + apply within_wr; [apply A |]. apply within_wr; [left; auto | apply within_ret].
    + apply within_seq; [apply within_read_keys; exact A |]. apply within_seq; [apply within_write_keys; intros j; right; reflexivity |]. apply within_wr; [right; reflexivity |]. apply within_wr; [left; auto | apply within_ret].
  - apply within_seq; [| apply within_ret]. specialize (T t V eq_refl). unfold add_inputs_call. apply within_rd; [apply T |]. cbn [mem_of]. apply within_rd; [apply T |]. apply within_wr; [apply T | apply within_ret].
  - apply within_seq; [| apply within_ret]. specialize (T t V eq_refl). apply (within_add_outputs _ _ t _ _ _ _ T). reflexivity.
  - apply within_seq; [| apply within_ret]. specialize (T t V eq_refl). apply within_rd; [apply T |]. cbn [mem_of]. apply within_wr; [apply T | apply within_ret].
  - specialize (BT b V eq_refl). apply within_rd; [left; auto |]. cbn [mem_of]. apply within_rd; [apply BT |]. cbn [mem_of]. apply within_wr; [apply BT | apply within_ret].
  - specialize (T t V eq_refl). apply within_wr; [apply T | apply within_ret].
  - specialize (T t V eq_refl). apply within_seq; [| apply within_ret]. apply (within_bytes _ _ t _ _ _ T); reflexivity.
  - specialize (T t V eq_refl). apply within_seq; [| apply within_ret]. apply (within_hash _ _ t _ _ _ T); reflexivity.
  - specialize (T t V eq_refl). apply within_seq; [| apply within_ret]. apply (within_fee _ _ _ t _ _ _ T); reflexivity.
  - specialize (BT b V eq_refl). apply within_seq; [| apply within_ret]. apply (within_min_fee _ _ _ b _ _ _ _ BT); try reflexivity; left; auto.
  - specialize (BT b V eq_refl). apply within_seq; [| apply within_ret]. apply within_seq; [apply (within_min_fee _ _ _ b _ _ _ _ BT); try reflexivity; left; auto |].
    set (m1 := final (min_fee_call _ _ _) _). assert (K : forall l, (forall x, l <> LWitness x) -> (forall b, l <> LRoom b) -> m1 l = mem_of w l) by (intros l N N'; apply min_fee_keeps; assumption). clearbody m1.
    apply within_rd; [left; auto |]. rewrite K by discriminate. cbn [mem_of]. apply within_rd; [apply BT |]. rewrite K by discriminate. cbn [mem_of]. apply within_wr; [apply BT |]. apply within_rd; [apply BT |]. apply within_rd; [apply BT |].
    apply (within_add_outputs _ _ _ _ _ _ _ BT). rewrite set_other by discriminate. rewrite K by discriminate. reflexivity.
  - specialize (BT b V eq_refl). apply within_seq; [| apply within_ret]. apply within_rd; [left; auto |]. cbn [mem_of]. apply within_seq; [apply (within_hash _ _ _ _ _ _ BT); reflexivity |].
    set (m1 := final (hash_call _ _) _). assert (K : forall l, (forall x, l <> LAux x) -> m1 l = mem_of w l) by (intros l N; apply hash_keeps; assumption). clearbody m1. destruct (answer _ _); try apply within_ret.
    apply within_rd; [left; auto |]. rewrite K by discriminate. cbn [mem_of]. apply within_seq; [apply within_read_keys; intros j; left; exists b; auto |]. rewrite read_keeps. destruct (sign_all _ _); try apply within_ret.
    apply within_wr; [right; reflexivity |]. apply within_wr; [apply BT |]. do 3 (apply within_rd; [apply BT |]). repeat (apply within_wr; [right; reflexivity |]). apply within_ret.
Qed.
End Touch.

(** Calls about different builders, at once: there is no race, and whatever the order of their accesses, the replies and the memory are
    those of one after the other, in either order. *)
Theorem C116_builders : forall (C : TxCrypto) (MO : MapOrder) w o o' e e', reachable w -> unshared w -> valid_op w o -> valid_op w o' ->
  fresh_env w e -> fresh_env w e' -> apart e e' -> (forall b, owner w o = Some b -> owner w o' <> Some b) ->
  ~ race (log (call e o) (mem_of w)) (log (call e' o') (mem_of w)) /\
  forall r r' m', both (call e o) (call e' o') (mem_of w) r r' m' ->
    r = answer (call e o) (mem_of w) /\ r' = answer (call e' o') (mem_of w) /\
    forall l, m' l = final (call e' o') (final (call e o) (mem_of w)) l /\ m' l = final (call e o) (final (call e' o') (mem_of w)) l.
Proof.
  intros C MO w o o' e e' Rw U V V' (F1 & F2 & F3 & F4 & F5) (F1' & F2' & F3' & F4' & F5') (A1 & A2 & A3 & A4 & A5) D. pose proof (reachable_inv w Rw) as I.
  assert (X : forall l, owned w o e l -> owned w o' e' l -> False).
  { intros l H H'. assert (N : forall b, owner w o = Some b -> owner w o' = Some b -> False) by (intros b P Q; exact (D b P Q)).
    destruct l; cbn [owned] in H, H'.
    all: try (destruct H as [[? ?] | ?], H' as [[? ?] | ?]; subst; try lia; try congruence; eauto; fail).
    - destruct H as [(t & T1 & T2 & T3) | ->], H' as [(t' & T1' & T2' & T3') | E'].
      + rewrite (inv_wits w I t t' T1 T1' ltac:(congruence)) in T3. eauto.
      + destruct (inv_txs w I t T1). lia.
      + destruct (inv_txs w I t' T1'). lia.
      + congruence.
    - destruct H as [(b & B1 & B2 & B3) | ->], H' as [(b' & B1' & B2' & B3') | E'].
      + destruct (Nat.eq_dec b b') as [<- | NE]; [eauto | exact (U b b' B1 B1' NE ltac:(congruence))].
      + destruct (inv_builders w I b B1) as (_ & _ & [SA _]). lia.
      + destruct (inv_builders w I b' B1') as (_ & _ & [SA _]). lia.
      + congruence.
    - destruct H as [(b & B1 & B2 & B3) | ->], H' as [(b' & B1' & B2' & B3') | E'].
      + destruct (Nat.eq_dec b b') as [<- | NE]; [eauto | exact (U b b' B1 B1' NE ltac:(congruence))].
      + destruct (inv_builders w I b B1) as (_ & _ & [SA _]). lia.
      + destruct (inv_builders w I b' B1') as (_ & _ & [SA _]). lia.
      + congruence. }
  assert (NR : ~ race (log (call e o) (mem_of w)) (log (call e' o') (mem_of w))).
  { intros (l & [[H H'] | [H H']]); apply (X l).
    - exact (touched w o e I V _ H).
    - destruct H' as [H' | H']; exact (touched w o' e' I V' _ H').
    - exact (touched w o e I V _ H).
    - exact (touched w o' e' I V' _ H'). }
  split; [exact NR |]. intros r r' m' B. destruct (no_race_sequential _ _ _ _ _ _ B NR) as (E1 & E2 & E3). split; [exact E1 |]. split; [exact E2 |]. intros l. split; [apply E3 |]. rewrite E3.
  symmetry. apply (no_race_sequential _ _ _ _ _ _ (both_first (call e o) (call e' o') (mem_of w)) NR).
Qed.
Print Assumptions C116_builders.
(** ** Calls that only look *)
(** Bytes, Hash and Fee of transaction t; [whole] if the witnesses are written, too. *)
Inductive look (t : nat) : op -> bool -> Prop :=
| look_bytes : look t (OBytes t) true
| look_hash : look t (OHash t) false
| look_fee lfee : look t (OFee t lfee) true.
Section Look.
Context {C : TxCrypto} {MO : MapOrder}.
Lemma calc_cases n t (m : mem) : runtime_order ->
  (m (LTMeta t) = None /\ log (calc n t) m = [R (LTMeta t)] /\ answer (calc n t) m = Ok tt) \/
  (exists md, m (LTMeta t) = Some md /\ encodable md /\ log (calc n t) m = [R (LTMeta t); R (LTBody t); W (LAux (m (LTBody t)))] /\ answer (calc n t) m = Ok tt) \/
  (exists md, m (LTMeta t) = Some md /\ ~ encodable md /\ log (calc n t) m = [R (LTMeta t)] /\ answer (calc n t) m = Err ECborEncode).
Proof.
  intros RO. unfold calc. cbn [log answer]. destruct (m (LTMeta t)) as [md |]; [right | left; auto]. pose proof (encodable_perm md _ (RO n md)) as P.
  destruct (enc_md_outcome (map_order n md)) as [[H (s & ->)] | [H ->]]; cbn [log answer]; [left | right]; exists md; tauto.
Qed.
(** The accesses of a look that can take part in a race. *)
Definition encodes (w : World) (t : nat) : Prop := match o_meta (obj w t) with None => True | Some md => encodable md end.
Lemma look_log w e t o whole : runtime_order -> look t o whole ->
  let p := log (call e o) (mem_of w) in
  (forall l, In (W l) p <-> l = LAux (o_body (obj w t)) /\ encodes w t /\ o_meta (obj w t) <> None) /\
  (forall b, In (R (LAux b)) p <-> b = o_body (obj w t) /\ encodes w t) /\
  (forall x, In (R (LWitness x)) p <-> x = o_wit (obj w t) /\ encodes w t /\ whole = true) /\
  (forall b, ~ In (R (LRoom b)) p).
Proof.
  intros RO L p.
  assert (E : p = log (calc (e_clock e) t) (mem_of w) ++
    match answer (calc (e_clock e) t) (mem_of w) with
    | Ok _ => [R (LTBody t); R (LInputs (o_body (obj w t))); R (LOutputs (o_body (obj w t))); R (LFee (o_body (obj w t))); R (LTTL (o_body (obj w t))); R (LAux (o_body (obj w t)))] ++
              (if whole then [R (LTWit t); R (LWitness (o_wit (obj w t))); R (LTValid t); R (LTMeta t)] else [])
    | _ => []
    end).
  { subst p. destruct L; cbn [call]; unfold bytes_call, hash_call, fee_call; rewrite !log_seq, ?final_seq, ?answer_seq; cbn [log]; rewrite app_nil_r; f_equal; destruct (answer (calc _ t) _); try reflexivity;
      unfold marshal; cbn [log]; rewrite ?log_seq; cbn [log]; unfold read_body; cbn [log final seq_prog]; rewrite ?calc_keeps by discriminate; cbn [mem_of app]; rewrite ?calc_keeps by discriminate; cbn [mem_of app]; rewrite ?app_nil_r; reflexivity. }
  clearbody p. subst p. unfold encodes. destruct (calc_cases (e_clock e) t (mem_of w) RO) as [(E & -> & ->) | [(md & E & K & -> & ->) | (md & E & K & -> & ->)]]; cbn [mem_of] in E; rewrite E; cbn [mem_of]; (repeat split);
    intros; destruct whole; cbn [app In] in *; intuition (try discriminate; try congruence); repeat match goal with H : R _ = R _ |- _ => injection H as H | H : W _ = W _ |- _ => injection H as H end; subst; auto; try discriminate.
Qed.
Lemma min_fee_log w e b : let p := log (call e (OMinFee b)) (mem_of w) in let t := b_tx (bld w b) in let B := nth (o_body (obj w t)) (w_bodies w) NewTxBody in
  (forall l, In (W l) p <-> (l = LWitness (o_wit (obj w t)) /\ nth (o_wit (obj w t)) (w_wits w) [] = []) \/ (l = LRoom (o_body (obj w t)) /\ e_room e = true /\ total_inputs B <> total_outputs B)) /\
  (forall x, ~ In (R (LAux x)) p) /\
  (forall x, In (R (LWitness x)) p <-> x = o_wit (obj w t)) /\
  (forall x, ~ In (R (LRoom x)) p).
Proof.
  intros p t B.
  assert (E : p = [R (LBTx b); R (LTBody t); R (LInputs (o_body (obj w t))); R (LOutputs (o_body (obj w t))); R (LFee (o_body (obj w t))); R (LTTL (o_body (obj w t))); R (LTWit t); R (LTMeta t); R (LWitness (o_wit (obj w t))); R (LBFees b)] ++
     (match nth (o_wit (obj w t)) (w_wits w) [] with [] => [W (LWitness (o_wit (obj w t)))] | _ => [] end) ++ (if e_room e && negb (total_inputs B =? total_outputs B) then [W (LRoom (o_body (obj w t)))] else [])).
  { subst p. cbn [call]. rewrite log_seq. cbn [log]. rewrite app_nil_r. unfold min_fee_call. cbn [log mem_of app]. fold t. repeat f_equal. cbv zeta. cbn [Body].
    change (total_inputs {| Inputs := Inputs (nth (o_body (obj w t)) (w_bodies w) NewTxBody); Outputs := Outputs (nth (o_body (obj w t)) (w_bodies w) NewTxBody);
       Fee := Fee (nth (o_body (obj w t)) (w_bodies w) NewTxBody); TTL := TTL (nth (o_body (obj w t)) (w_bodies w) NewTxBody); AuxHash := [] |}) with (total_inputs B).
    change (total_outputs {| Inputs := Inputs (nth (o_body (obj w t)) (w_bodies w) NewTxBody); Outputs := Outputs (nth (o_body (obj w t)) (w_bodies w) NewTxBody);
       Fee := Fee (nth (o_body (obj w t)) (w_bodies w) NewTxBody); TTL := TTL (nth (o_body (obj w t)) (w_bodies w) NewTxBody); AuxHash := [] |}) with (total_outputs B).
    destruct (nth _ (w_wits w) []); destruct (e_room e && _); reflexivity. }
  clearbody p. subst p.
  destruct (nth (o_wit (obj w t)) (w_wits w) []) as [| wt ws]; destruct (e_room e); destruct (Z.eqb_spec (total_inputs B) (total_outputs B)) as [Q | Q]; cbn [andb negb app In] in *; (repeat split);
    intros; intuition (try discriminate; try congruence); repeat match goal with H : R _ = R _ |- _ => injection H as H | H : W _ = W _ |- _ => injection H as H end; subst; auto; try discriminate.
Qed.
End Look.

(** Full statement: calls that only look at transactions (Bytes, Hash, Fee, MinFee) do not race. Exactly when two of Bytes, Hash and
    Fee do: the transactions have one body, both calls get past the hashing of the metadata, and there are metadata to hash. *)
Theorem C116_looks_exact : forall (C : TxCrypto) (MO : MapOrder) w e e' t t' o o' whole whole', runtime_order -> look t o whole -> look t' o' whole' ->
  (race (log (call e o) (mem_of w)) (log (call e' o') (mem_of w)) <->
   o_body (obj w t) = o_body (obj w t') /\ metadata_encodable (load w t) /\ metadata_encodable (load w t') /\ (Metadata (load w t) <> None \/ Metadata (load w t') <> None)).
Proof.
  intros C MO w e e' t t' o o' z z' RO L L'. destruct (look_log w e t o z RO L) as (W1 & A1 & _ & _). destruct (look_log w e' t' o' z' RO L') as (W2 & A2 & _ & _).
  change (metadata_encodable (load w t)) with (encodes w t). change (metadata_encodable (load w t')) with (encodes w t'). change (Metadata (load w t)) with (o_meta (obj w t)). change (Metadata (load w t')) with (o_meta (obj w t')).
  split.
  - intros (l & [[H [H' | H']] | [H H']]).
    + apply W1 in H as (-> & H & N). apply W2 in H' as (E & H' & N'). injection E as E. auto.
    + apply W1 in H as (-> & H & N). apply A2 in H' as (E & H'). auto.
    + apply W2 in H' as (-> & H' & N). apply A1 in H as (E & H). auto.
  - intros (E & H & H' & [N | N]); exists (LAux (o_body (obj w t))).
    + left. split; [apply W1; auto |]. right. apply A2. auto.
    + right. split; [apply A1; auto |]. apply W2. rewrite E. auto.
Qed.
Print Assumptions C116_looks_exact.
(** ... MinFee next to one of them: when the transactions have one list of witnesses, it is empty, and it is written by the other. *)
Theorem C116_min_fee_look_exact : forall (C : TxCrypto) (MO : MapOrder) w e e' b t o whole, runtime_order -> look t o whole ->
  (race (log (call e (OMinFee b)) (mem_of w)) (log (call e' o) (mem_of w)) <->
   o_wit (obj w (b_tx (bld w b))) = o_wit (obj w t) /\ Witness (load w t) = [] /\ metadata_encodable (load w t) /\ whole = true).
Proof.
  intros C MO w e e' b t o z RO L. destruct (min_fee_log w e b) as (W1 & A1 & S1 & R1). destruct (look_log w e' t o z RO L) as (W2 & A2 & S2 & R2).
  change (metadata_encodable (load w t)) with (encodes w t). change (Witness (load w t)) with (nth (o_wit (obj w t)) (w_wits w) []).
  split.
  - intros (l & [[H [H' | H']] | [H H']]).
    + apply W2 in H' as (-> & _). apply W1 in H as [[X _] | [X _]]; discriminate X.
    + apply W1 in H as [[-> N] | [-> _]]; [| apply R2 in H'; destruct H']. apply S2 in H' as (E & H' & Z). rewrite <- E. auto.
    + apply W2 in H' as (-> & _). apply A1 in H. destruct H.
  - intros (E & N & H & Z). exists (LWitness (o_wit (obj w t))). left. split; [apply W1; left; rewrite E; auto |]. right. apply S2. auto.
Qed.
Print Assumptions C116_min_fee_look_exact.
(** ... and two calls of MinFee: when they are about one builder, and it has no witnesses, or its outputs have spare capacity and do
    not balance. *)
Theorem C116_min_fee_exact : forall (C : TxCrypto) (MO : MapOrder) w e e' b b', reachable w -> (b < nbuilders w)%nat -> (b' < nbuilders w)%nat -> e_room e = e_room e' ->
  (race (log (call e (OMinFee b)) (mem_of w)) (log (call e' (OMinFee b')) (mem_of w)) <->
   b = b' /\ (Witness (builder_tx w b) = [] \/ (e_room e = true /\ sum_in (Body (builder_tx w b)) mod 2 ^ 64 <> sum_out (Body (builder_tx w b)) mod 2 ^ 64))).
Proof.
  intros C MO w e e' b b' Rw V V' ER. pose proof (reachable_inv w Rw) as I. destruct (min_fee_log w e b) as (W1 & A1 & S1 & R1). destruct (min_fee_log w e' b') as (W2 & A2 & S2 & R2).
  destruct (inv_builders w I b V) as (Ht & Eb & _). destruct (inv_builders w I b' V') as (Ht' & Eb' & _).
  change (Witness (builder_tx w b)) with (nth (o_wit (obj w (b_tx (bld w b)))) (w_wits w) []). change (Body (builder_tx w b)) with (nth (o_body (obj w (b_tx (bld w b)))) (w_bodies w) NewTxBody).
  set (B := nth (o_body (obj w (b_tx (bld w b)))) (w_bodies w) NewTxBody) in *.
  assert (T : total_inputs B <> total_outputs B <-> sum_in B mod 2 ^ 64 <> sum_out B mod 2 ^ 64) by (rewrite total_inputs_sum, total_outputs_sum; reflexivity). rewrite <- T. clear T.
  assert (WB : o_wit (obj w (b_tx (bld w b))) = o_wit (obj w (b_tx (bld w b'))) -> b = b') by (intros E; pose proof (inv_wits w I _ _ Ht Ht' E); congruence).
  split.
  - intros (l & [[H [H' | H']] | [H H']]).
    + apply W1 in H as [[-> N] | [-> N]]; apply W2 in H' as [[E N'] | [E N']]; try discriminate E; injection E as E; [auto |]. split; [congruence | auto].
    + apply W1 in H as [[-> N] | [-> N]]; [apply S2 in H'; auto | destruct (R2 _ H')].
    + apply W2 in H' as [[-> N] | [-> N]]; [apply S1 in H | destruct (R1 _ H)]. assert (Q : b = b') by (apply WB; congruence). subst b'. split; [reflexivity | auto].
  - intros (<- & [N | [RT N]]).
    + exists (LWitness (o_wit (obj w (b_tx (bld w b))))). left. split; [apply W1; auto |]. right. apply S2. reflexivity.
    + exists (LRoom (o_body (obj w (b_tx (bld w b))))). left. split; [apply W1; auto |]. left. apply W2. right. rewrite <- ER. auto.
Qed.
Print Assumptions C116_min_fee_exact.
(** Two goroutines that serialise one transaction with metadata race. *)
Theorem C116_refuted : forall (C : TxCrypto) (MO : MapOrder) w e e' t md, runtime_order -> Metadata (load w t) = Some md -> encodable md ->
  race (log (call e (OBytes t)) (mem_of w)) (log (call e' (OBytes t)) (mem_of w)).
Proof.
  intros C MO w e e' t md RO E K. apply (C116_looks_exact C MO w e e' t t (OBytes t) (OBytes t) true true RO (look_bytes t) (look_bytes t)).
  unfold metadata_encodable. rewrite E. repeat split; auto. left. discriminate.
Qed.
Print Assumptions C116_refuted.
(** Two goroutines that ask a builder for its fee before it has witnesses race; and so does one that asks with one that serialises. *)
Theorem C116_min_fee_refuted : forall (C : TxCrypto) (MO : MapOrder) w e e' b, runtime_order -> reachable w -> (b < nbuilders w)%nat -> Witness (builder_tx w b) = [] -> metadata_encodable (builder_tx w b) -> e_room e = e_room e' ->
  race (log (call e (OMinFee b)) (mem_of w)) (log (call e' (OMinFee b)) (mem_of w)) /\
  race (log (call e (OMinFee b)) (mem_of w)) (log (call e' (OBytes (b_tx (bld w b)))) (mem_of w)).
Proof.
  intros C MO w e e' b RO Rw V N K ER. split; [apply C116_min_fee_exact; auto |]. apply (C116_min_fee_look_exact C MO w e e' b _ _ true RO (look_bytes _)). auto.
Qed.
Print Assumptions C116_min_fee_refuted.
(** Two builders over one slice of keys with spare capacity: Sign of one races with Sign of the other; which of the two keys both
    builders end up with is open. *)
Theorem C116_keys_refuted : forall (C : TxCrypto) (MO : MapOrder) keys spare f k k' e e',
  let w := run empty_world (firstn 3 (shared_history keys spare f k k')) in let n := length keys in
  valid_run empty_world (firstn 3 (shared_history keys spare f k k')) /\ valid_op w (OSign 0 k) /\ valid_op w (OSign 1 k') /\
  race (log (call e (OSign 0 k)) (mem_of w)) (log (call e' (OSign 1 k')) (mem_of w)) /\
  (exists m, both (call e (OSign 0 k)) (call e' (OSign 1 k')) (mem_of w) NoReply NoReply m /\ m (LKey 0 n) = k /\
     m (LBKeys 0) = {| s_arr := 0; s_off := 0; s_len := S n |} /\ m (LBKeys 1) = {| s_arr := 0; s_off := 0; s_len := S n |}) /\
  (exists m, both (call e (OSign 0 k)) (call e' (OSign 1 k')) (mem_of w) NoReply NoReply m /\ m (LKey 0 n) = k' /\
     m (LBKeys 0) = {| s_arr := 0; s_off := 0; s_len := S n |} /\ m (LBKeys 1) = {| s_arr := 0; s_off := 0; s_len := S n |}).
Proof.
  intros C MO keys spare f k k' e e' w n. destruct (C35_keys_refuted C MO keys spare f k k') as (V & _ & _). unfold shared_history in V. cbn [valid_run] in V. destruct V as (V1 & V2 & V3 & V4 & V5 & _).
  split; [cbn [firstn shared_history valid_run]; auto |]. split; [exact V4 |]. split; [cbn; lia |].
  set (s := {| s_arr := 0; s_off := 0; s_len := n |}). set (s' := {| s_arr := 0; s_off := 0; s_len := S n |}).
  assert (S1 : forall b (m : mem) x a, m (LBKeys b) = s -> m (LCap 0) = (n + S spare)%nat ->
     log (sign_call a b x) m = [R (LBKeys b); R (LCap 0); W (LKey 0 n); W (LBKeys b)] /\ final (sign_call a b x) m = set (set m (LKey 0 n) x) (LBKeys b) s').
  { intros b m x a E1 E2. unfold sign_call. cbn [log final]. rewrite E1. cbn [s s_arr s_off s_len Nat.add]. rewrite E2. destruct (Nat.ltb_spec n (n + S spare)); [split; reflexivity | lia]. }
  assert (K0 : mem_of w (LBKeys 0) = s) by reflexivity. assert (K1 : mem_of w (LBKeys 1) = s) by reflexivity.
  assert (KC : mem_of w (LCap 0) = (n + S spare)%nat) by (cbn [mem_of]; change (nth 0 (w_arrays w) []) with (keys ++ repeat (@nil Z) (S spare)); rewrite app_length, repeat_length; reflexivity).
  set (m := mem_of w) in *. clearbody m. clear w V1 V2 V3 V4 V5. cbn [call].
  destruct (S1 0%nat m k (e_array e) K0 KC) as [L0 F0]. destruct (S1 1%nat m k' (e_array e') K1 KC) as [L1 F1].
  split; [| split].
  - rewrite !log_seq. cbn [log]. rewrite !app_nil_r, L0, L1. exists (LKey 0 n). left. split; [right; right; left; reflexivity | left; right; right; left; reflexivity].
  - pose proof (both_first (let* _ := sign_call (e_array e) 0 k; Ret NoReply) (let* _ := sign_call (e_array e') 1 k'; Ret NoReply) m) as B. rewrite !answer_seq, !final_seq in B. cbn [answer final] in B.
    rewrite F1 in B. set (m1 := set (set m (LKey 0 n) k') (LBKeys 1) s') in *. destruct (S1 0%nat m1 k (e_array e)) as [_ F]; [unfold m1; rewrite !set_other by discriminate; exact K0 | unfold m1; rewrite !set_other by discriminate; exact KC |].
    rewrite F in B. eexists. split; [exact B |]. unfold m1. split; [rewrite set_other by discriminate; apply set_same | split; [apply set_same |]]. rewrite !set_other by discriminate. apply set_same.
  - pose proof (both_second (let* _ := sign_call (e_array e) 0 k; Ret NoReply) (let* _ := sign_call (e_array e') 1 k'; Ret NoReply) m) as B. rewrite !answer_seq, !final_seq in B. cbn [answer final] in B.
    rewrite F0 in B. set (m1 := set (set m (LKey 0 n) k) (LBKeys 0) s') in *. destruct (S1 1%nat m1 k' (e_array e')) as [_ F]; [unfold m1; rewrite !set_other by discriminate; exact K1 | unfold m1; rewrite !set_other by discriminate; exact KC |].
    rewrite F in B. eexists. split; [exact B |]. unfold m1. split; [rewrite set_other by discriminate; apply set_same | split; [| apply set_same]]. rewrite !set_other by discriminate. apply set_same.
Qed.
Print Assumptions C116_keys_refuted.

(** A program with two builders, the second with metadata. *)
Section Ex116.
#[local] Existing Instance ex_crypto.
#[local] Existing Instance id_order.
Definition C116_history : list op :=
  [OMakeKeys ex_keys 0; ONewBuilder ex_fees {| s_arr := 0; s_off := 0; s_len := 2 |}; OMakeKeys ex_keys 3; ONewBuilder ex_fees {| s_arr := 1; s_off := 0; s_len := 1 |};
   OAddInputs 0 [ex_input 5000000]; OSetMetadata 1 (Some (MdMap [(MdUint 1, MdText [97])]))].
Definition C116_world : World := run empty_world C116_history.
Definition C116_env (n : nat) : env := {| e_clock := 0; e_room := false; e_builder := n; e_tx := n; e_body := n; e_wit := n; e_array := n |}.
Example C116_example : reachable C116_world /\ unshared C116_world /\
  valid_op C116_world (OMinFee 0) /\ valid_op C116_world (OBytes 1) /\ fresh_env C116_world (C116_env 2) /\ fresh_env C116_world (C116_env 3) /\ apart (C116_env 2) (C116_env 3) /\
  (forall b, owner C116_world (OMinFee 0) = Some b -> owner C116_world (OBytes 1) <> Some b) /\
  Witness (builder_tx C116_world 0) = [] /\ metadata_encodable (builder_tx C116_world 0) /\
  Metadata (load C116_world 1) = Some (MdMap [(MdUint 1, MdText [97])]) /\ encodable (MdMap [(MdUint 1, MdText [97])]).
Proof.
  split; [exists C116_history; split; [| reflexivity]; cbn [valid_run C116_history]; repeat (split; [cbv [step make_keys new_tx_builder]; cbn; try lia; exact Logic.I |]); exact Logic.I |].
  split; [intros b b' H H' N; cbn in H, H'; destruct b as [| [| b]], b' as [| [| b']]; try lia; cbn; lia |].
  split; [cbn; lia |]. split; [cbn; lia |]. split; [unfold fresh_env; cbn; lia |]. split; [unfold fresh_env; cbn; lia |]. split; [unfold apart; cbn; lia |].
  split; [intros b E; cbn in *; congruence |]. split; [reflexivity |]. split; [exact Logic.I |]. split; [reflexivity |]. cbn. auto.
Qed.
End Ex116.
