(** The transactions with pointers and those without. *)
From Verif.Model Require Import Base Cbor Address Tx Builder Pointers.
From Verif.Spec Require Import World Pointers.
From Verif.Proofs Require Import Util HeapFacts HeapProps.

Lemma upd_upd {A} (l : list A) i x y : upd (upd l i x) i y = upd l i y.
Proof. revert i. induction l as [| z l IH]; intros [| i]; cbn; auto. rewrite IH. reflexivity. Qed.
Lemma map_upd {A B} (f : A -> B) l i x : map f (upd l i x) = upd (map f l) i (f x).
Proof. revert i. induction l as [| y l IH]; intros [| i]; cbn; auto. rewrite IH. reflexivity. Qed.
Lemma Forall_upd' {A} (P : A -> Prop) l i x : Forall P l -> P x -> Forall P (upd l i x).
Proof. intros H Hx. revert i. induction H; intros [| i]; cbn; constructor; auto. Qed.
Lemma Forall_nth' {A} (P : A -> Prop) l i d : Forall P l -> P d -> P (nth i l d).
Proof. intros H Hd. revert i. induction H; intros [| i]; cbn; auto. Qed.
Lemma list_nth_ext {A} (l k : list A) d : length l = length k -> (forall i, (i < length l)%nat -> nth i l d = nth i k d) -> l = k.
Proof. intros L H. apply (nth_ext l k d d L H). Qed.

Lemma slice_append_any {A} (arr : list A) off len k : (off + len < length arr)%nat ->
  firstn (S len) (skipn off (upd arr (off + len) k)) = firstn len (skipn off arr) ++ [k].
Proof.
  revert arr. induction off as [| off IH]; intros arr H.
  - cbn [skipn Nat.add] in *. revert arr H. induction len as [| len IH]; intros [| x arr] H; cbn in *; try lia; auto. f_equal. apply IH. lia.
  - destruct arr as [| x arr]; cbn in *; [lia |]. apply IH. lia.
Qed.

Section Pointers.
Context {C : TxCrypto} {MO : MapOrder}.

Definition key_ref_ok (n : nat) (r : option nat) : Prop := match r with Some r => (r < n)%nat | None => True end.
Record refs_ok (pw : PWorld) : Prop := {
  ro_ins : Forall (fun b => Forall (fun r => r < length (p_inputs pw))%nat (p_ins b)) (p_bodies pw);
  ro_outs : Forall (fun b => Forall (fun r => r < length (p_outputs pw))%nat (p_outs b)) (p_bodies pw);
  ro_keys : Forall (Forall (key_ref_ok (length (p_keys pw)))) (p_arrays pw)
}.

(** ** Heaps that grow *)
Lemma view_heaps pw i o k : refs_ok pw ->
  (forall r, (r < length (p_inputs pw))%nat -> nth r i {| TxHash := []; Index := 0; InAmount := 0 |} = input_at pw r) ->
  (forall r, (r < length (p_outputs pw))%nat -> nth r o {| OutAddress := placeholder_addr; OutAmount := 0 |} = output_at pw r) ->
  (forall r, (r < length (p_keys pw))%nat -> nth r k [] = key_at pw (Some r)) -> view (with_heaps pw i o k) = view pw.
Proof.
  intros [R1 R2 R3] Hi Ho Hk. unfold view. cbn [p_txs p_wits p_builders p_clock p_bodies p_arrays with_heaps]. f_equal.
  - apply map_ext_Forall. revert R1 R2. generalize (p_bodies pw). induction l as [| b l IH]; intros R1 R2; constructor.
    + apply Forall_inv in R1. apply Forall_inv in R2. unfold body_now. f_equal; apply map_ext_Forall; eapply Forall_impl; try eassumption; cbn; intros r Hr; [apply Hi | apply Ho]; exact Hr.
    + apply IH; eapply Forall_inv_tail; eassumption.
  - apply map_ext_Forall. eapply Forall_impl; [| exact R3]. intros a Ha. apply map_ext_Forall. eapply Forall_impl; [| exact Ha]. intros [r |] Hr; [apply Hk; exact Hr | reflexivity].
Qed.
Lemma refs_heaps pw i o k : refs_ok pw -> (length (p_inputs pw) <= length i)%nat -> (length (p_outputs pw) <= length o)%nat -> (length (p_keys pw) <= length k)%nat -> refs_ok (with_heaps pw i o k).
Proof.
  intros [R1 R2 R3] L1 L2 L3. constructor; cbn.
  - eapply Forall_impl; [| exact R1]. intros b. apply Forall_impl. lia.
  - eapply Forall_impl; [| exact R2]. intros b. apply Forall_impl. lia.
  - eapply Forall_impl; [| exact R3]. intros a. apply Forall_impl. intros [r |]; cbn; auto. lia.
Qed.
Lemma view_new_input pw i : refs_ok pw -> view (new_input pw i) = view pw.
Proof. intros R. apply view_heaps; auto. intros r Hr. apply nth_app_l. exact Hr. Qed.
Lemma view_new_output pw o : refs_ok pw -> view (new_output pw o) = view pw.
Proof. intros R. apply view_heaps; auto. intros r Hr. apply nth_app_l. exact Hr. Qed.
Lemma view_new_key pw k : refs_ok pw -> view (new_key pw k) = view pw.
Proof. intros R. apply view_heaps; auto. intros r Hr. apply nth_app_l. exact Hr. Qed.
Lemma refs_new_output pw o : refs_ok pw -> refs_ok (new_output pw o).
Proof. intros R. apply refs_heaps; auto. rewrite app_length. lia. Qed.

(** ** Assigning what is no pointer *)
Lemma assign_bodies pw l k : length k = length l -> (forall i, (i < length l)%nat -> Inputs (nth i k NewTxBody) = map (input_at pw) (p_ins (nth i l nil_pbody)) /\
  Outputs (nth i k NewTxBody) = map (output_at pw) (p_outs (nth i l nil_pbody))) -> map (body_now pw) (map2 keep_refs l k) = k.
Proof.
  revert k. induction l as [| b l IH]; intros [| v k] L H; try discriminate; [reflexivity |]. cbn [map2 map]. f_equal.
  - destruct (H O ltac:(cbn; lia)) as [E1 E2]. cbn [nth] in E1, E2. unfold body_now, keep_refs. cbn. rewrite <- E1, <- E2. destruct v. reflexivity.
  - apply IH; [cbn in L; lia |]. intros i Hi. apply (H (S i)). cbn. lia.
Qed.
Lemma assign_view pw w : length (w_bodies w) = length (p_bodies pw) -> (forall i, Inputs (body_of w i) = Inputs (body_of (view pw) i) /\ Outputs (body_of w i) = Outputs (body_of (view pw) i)) ->
  w_arrays w = w_arrays (view pw) -> view (assign pw w) = w.
Proof.
  intros L H A. unfold view at 1. cbn [p_txs p_wits p_builders p_clock p_bodies p_arrays assign].
  change (map (map (key_at (assign pw w))) (p_arrays pw)) with (w_arrays (view pw)). rewrite <- A.
  change (map (body_now (assign pw w))) with (map (body_now pw)). rewrite assign_bodies; [destruct w; reflexivity | exact L |].
  intros i Hi. destruct (H i) as [E1 E2]. unfold body_of in E1, E2. rewrite E1, E2. cbn [w_bodies view].
  rewrite (nth_indep _ NewTxBody (body_now pw nil_pbody)) by (rewrite map_length; exact Hi). rewrite map_nth. split; reflexivity.
Qed.
Lemma assign_refs pw w : length (w_bodies w) = length (p_bodies pw) -> refs_ok pw -> refs_ok (assign pw w).
Proof.
  intros L [R1 R2 R3]. constructor; cbn; [| | exact R3]; clear - L R1 R2; revert L; generalize (w_bodies w).
  - induction R1; intros [| v k] L; try discriminate; cbn; constructor; auto. apply IHR1; [eapply Forall_inv_tail; eassumption | cbn in L; lia].
  - induction R2; intros [| v k] L; try discriminate; cbn; constructor; auto. apply IHR2; [eapply Forall_inv_tail; eassumption | cbn in L; lia].
Qed.

(** ** Appending pointers *)
Lemma body_now_nth pw i : body_of (view pw) i = body_now pw (nth i (p_bodies pw) nil_pbody).
Proof. unfold body_of. cbn [w_bodies view]. change NewTxBody with (body_now pw nil_pbody). apply map_nth. Qed.
Lemma view_add_inputs pw t l : view (p_add_inputs pw t l) = add_tx_inputs (view pw) t (map (input_at pw) l).
Proof.
  unfold add_tx_inputs, p_add_inputs, put_body. rewrite load_body, body_now_nth. unfold view at 1. cbn. f_equal. unfold p_body, obj. cbn [p_txs w_txs view]. rewrite map_upd. f_equal.
  unfold add_inputs, body_now. cbn. rewrite map_app. reflexivity.
Qed.
Lemma view_add_outputs pw t l : view (p_add_outputs pw t l) = add_tx_outputs (view pw) t (map (output_at pw) l).
Proof.
  unfold add_tx_outputs, p_add_outputs, put_body. rewrite load_body, body_now_nth. unfold view at 1. cbn. f_equal. unfold p_body, obj. cbn [p_txs w_txs view]. rewrite map_upd. f_equal.
  unfold add_outputs, body_now. cbn. rewrite map_app. reflexivity.
Qed.
Lemma refs_nth_ins pw i : refs_ok pw -> Forall (fun r => r < length (p_inputs pw))%nat (p_ins (nth i (p_bodies pw) nil_pbody)).
Proof. intros R. apply (Forall_nth' (fun b => Forall _ (p_ins b))); [apply (ro_ins pw R) | constructor]. Qed.
Lemma refs_nth_outs pw i : refs_ok pw -> Forall (fun r => r < length (p_outputs pw))%nat (p_outs (nth i (p_bodies pw) nil_pbody)).
Proof. intros R. apply (Forall_nth' (fun b => Forall _ (p_outs b))); [apply (ro_outs pw R) | constructor]. Qed.
Lemma refs_add_inputs pw t l : refs_ok pw -> Forall (fun r => r < length (p_inputs pw))%nat l -> refs_ok (p_add_inputs pw t l).
Proof.
  intros R Hl. pose proof (refs_nth_ins pw (p_body pw t) R) as N1. pose proof (refs_nth_outs pw (p_body pw t) R) as N2. destruct R as [R1 R2 R3]. constructor; cbn; auto; apply Forall_upd'; auto. cbn. apply Forall_app. auto.
Qed.
Lemma refs_add_outputs pw t l : refs_ok pw -> Forall (fun r => r < length (p_outputs pw))%nat l -> refs_ok (p_add_outputs pw t l).
Proof.
  intros R Hl. pose proof (refs_nth_ins pw (p_body pw t) R) as N1. pose proof (refs_nth_outs pw (p_body pw t) R) as N2. destruct R as [R1 R2 R3]. constructor; cbn; auto; apply Forall_upd'; auto. cbn. apply Forall_app. auto.
Qed.

(** ** Change *)
Definition PInv (pw : PWorld) : Prop := Inv (view pw) /\ refs_ok pw.
Lemma view_add_change pw b a : PInv pw -> (b < length (p_builders pw))%nat ->
  view (p_add_change pw b a) = add_change_if_needed (view pw) b a /\ refs_ok (p_add_change pw b a).
Proof.
  intros [I R] Hb. unfold p_add_change. change (nth b (p_builders pw) nil_builder) with (bld (view pw) b). set (t := b_tx (bld (view pw) b)).
  destruct (run_min_fee (view pw) b) as [w1 f] eqn:E. pose proof E as E0. rewrite run_min_fee_eq in E. injection E as E _.
  set (b1 := set_fee (Body (load w1 t)) f). set (i := o_body (obj w1 t)). set (pw1 := assign pw (put_body w1 i b1)).
  assert (Lb : length (w_bodies (put_body w1 i b1)) = length (p_bodies pw)) by (cbn; rewrite upd_length, <- E; cbn; apply map_length).
  assert (V1 : view pw1 = put_body w1 i b1).
  { apply assign_view; [exact Lb | | rewrite <- E; reflexivity]. intros j. rewrite body_put. assert (Q : body_of w1 j = body_of (view pw) j) by (rewrite <- E; reflexivity).
    destruct (Nat.eqb_spec j i) as [-> | N]; cbn [andb]; [destruct (_ <? _)%nat |]; rewrite ?Q; auto. unfold b1. cbn [Inputs Outputs set_fee]. rewrite load_body. fold i. rewrite Q. auto. }
  assert (R1 : refs_ok pw1) by (apply assign_refs; auto). set (out := {| OutAddress := a; OutAmount := change_amount b1 |}).
  assert (R2 : refs_ok (new_output pw1 out)) by (apply refs_new_output, R1).
  split.
  - rewrite view_add_outputs, view_new_output, V1 by exact R1. cbn [map]. replace (output_at (new_output pw1 out) (length (p_outputs pw1))) with out by (symmetry; apply nth_app_last).
    unfold add_change_if_needed. fold t. rewrite E0. unfold add_tx_outputs, put_body. cbn [obj w_txs w_bodies]. rewrite upd_upd. fold i.
    rewrite load_body. change (o_body (obj _ t)) with i. unfold body_of. cbn [w_bodies]. rewrite nth_upd_same; [reflexivity |].
    destruct (inv_builders _ I b Hb) as (K1 & K2 & _). fold t in K1, K2. unfold i. rewrite <- E. cbn. unfold obj in *. rewrite map_length. pose proof (inv_bodies _ I) as Q. cbn [w_bodies view] in Q. rewrite map_length in Q. cbn [w_builders view] in Q. cbn [w_txs view] in *. rewrite K2. lia.
  - apply refs_add_outputs; [exact R2 |]. apply Forall_cons; [| apply Forall_nil]. cbn. rewrite app_length. cbn. lia.
Qed.

(** ** Every call *)
Lemma view_make_keys pw keys spare : view (with_arrays pw (p_arrays pw ++ [map Some keys ++ repeat None spare]) (p_builders pw)) =
  make_keys (view pw) (map (fun r => nth r (p_keys pw) []) keys) spare.
Proof.
  unfold make_keys, new_array, view. cbn. f_equal. rewrite map_app. cbn [map]. rewrite map_app, map_map. f_equal. f_equal. f_equal.
  induction spare as [| n IH]; [reflexivity |]. cbn. f_equal. exact IH.
Qed.
Lemma map_repeat_none pw n : map (key_at pw) (repeat None n) = repeat [] n.
Proof. induction n; cbn; f_equal; auto. Qed.
Lemma view_sign pw b key : view (p_sign pw b key) = sign_with (view pw) b (nth key (p_keys pw) []).
Proof.
  unfold p_sign, sign_with. change (bld (view pw) b) with (nth b (p_builders pw) nil_builder). set (bo := nth b (p_builders pw) nil_builder). set (s := b_keys bo).
  assert (EA : nth (s_arr s) (w_arrays (view pw)) [] = map (key_at pw) (nth (s_arr s) (p_arrays pw) [])).
  { cbn [w_arrays view]. change [] with (map (key_at pw) []) at 1. apply map_nth. }
  unfold slice_keys. rewrite EA, map_length. destruct (_ <? _)%nat.
  - unfold put_builder, put_array, view. cbn. f_equal. rewrite map_upd, map_upd. reflexivity.
  - unfold put_builder, new_array, view. cbn. rewrite skipn_map, firstn_map, !map_length, map_app. f_equal. f_equal. cbn [map]. rewrite map_app. cbn [map]. rewrite map_repeat_none. reflexivity.
Qed.
Lemma Forall_sub {A} (P : A -> Prop) l i j : Forall P l -> Forall P (firstn i (skipn j l)).
Proof.
  intros H. apply Forall_forall. intros x Hx. eapply Forall_forall in H; [exact H |]. rewrite <- (firstn_skipn j l). apply in_or_app. right. rewrite <- (firstn_skipn i (skipn j l)). apply in_or_app. left. exact Hx.
Qed.
Lemma refs_sign pw b key : refs_ok pw -> (key < length (p_keys pw))%nat -> refs_ok (p_sign pw b key).
Proof.
  intros [R1 R2 R3] Hk. unfold p_sign. assert (N : forall i, Forall (key_ref_ok (length (p_keys pw))) (nth i (p_arrays pw) [])) by (intros i; apply Forall_nth'; [exact R3 | constructor]).
  destruct (_ <? _)%nat; constructor; cbn; auto.
  - apply Forall_upd'; [exact R3 |]. apply Forall_upd'; [apply N | exact Hk].
  - apply Forall_app. split; [exact R3 |]. apply Forall_cons; [| apply Forall_nil]. apply Forall_app. split; [apply Forall_sub, N |]. apply Forall_cons; [exact Hk |].
    apply Forall_forall. intros x Hx. apply repeat_spec in Hx. subst x. exact I.
Qed.
Lemma bodies_step w o : length (w_bodies (step w o)) = match o with ONewBuilder _ _ => Datatypes.S (length (w_bodies w)) | _ => length (w_bodies w) end.
Proof.
  destruct o; cbn [step]; try (cbn; rewrite ?upd_length; reflexivity).
  - cbn. rewrite app_length. cbn. lia.
  - unfold sign_with. destruct (_ <? _)%nat; reflexivity.
  - rewrite run_bytes_eq. cbn. apply upd_length.
  - rewrite run_hash_eq. cbn. apply upd_length.
  - rewrite run_fee_eq. cbn. apply upd_length.
  - rewrite run_min_fee_eq. reflexivity.
  - rewrite add_change_eq. cbn. apply upd_length.
  - assert (G : length (w_bodies (fst (run_hash w (b_tx (bld w b))))) = length (w_bodies w)) by (rewrite run_hash_eq; cbn; apply upd_length).
    destruct (build w b) as [w' r] eqn:E. cbn [fst]. destruct r as [t' | e |].
    + apply build_eq in E as (h & ws & _ & _ & -> & _). exact G.
    + rewrite (build_fail _ _ _ _ E) by discriminate. exact G.
    + rewrite (build_fail _ _ _ _ E) by discriminate. exact G.
Qed.
Definition plain_call (o : op) : Prop :=
  match o with OMakeKeys _ _ | ONewBuilder _ _ | OSign _ _ | OAddInputs _ _ | OAddOutputs _ _ | OAddChange _ _ => False | _ => True end.
Lemma arrays_plain w o : plain_call o -> w_arrays (step w o) = w_arrays w.
Proof.
  destruct o; cbn [step plain_call]; intros P; try tauto; try reflexivity.
  - rewrite run_bytes_eq. reflexivity.
  - rewrite run_hash_eq. reflexivity.
  - rewrite run_fee_eq. reflexivity.
  - rewrite run_min_fee_eq. reflexivity.
  - assert (G : w_arrays (fst (run_hash w (b_tx (bld w b)))) = w_arrays w) by (rewrite run_hash_eq; reflexivity).
    destruct (build w b) as [w' r] eqn:E. cbn [fst]. destruct r as [t' | e |].
    + apply build_eq in E as (h & ws & _ & _ & -> & _). exact G.
    + rewrite (build_fail _ _ _ _ E) by discriminate. exact G.
    + rewrite (build_fail _ _ _ _ E) by discriminate. exact G.
Qed.
Lemma view_call pw o : PInv pw -> valid_op (view pw) o -> plain_call o -> view (assign pw (step (view pw) o)) = step (view pw) o /\ refs_ok (assign pw (step (view pw) o)).
Proof.
  intros [I R] V P. assert (L : length (w_bodies (step (view pw) o)) = length (p_bodies pw)).
  { rewrite bodies_step. replace (length (w_bodies (view pw))) with (length (p_bodies pw)) by (cbn; symmetry; apply map_length). destruct o; try reflexivity. destruct P. }
  split; [| apply assign_refs; auto]. apply assign_view; [exact L | | apply arrays_plain, P].
  intros i. pose proof (core_step (view pw) o i I V) as Q. apply core_split in Q as (Q1 & Q2 & _ & _). rewrite Q1, Q2.
  destruct o; cbn [added_inputs added_outputs]; rewrite ?app_nil_r; auto; destruct P.
Qed.

(** A call with pointers is the call with the values they denote. *)
Lemma pstep_view pw o : PInv pw -> pvalid pw o -> ~ is_write o ->
  view (pstep pw o) = match value_op pw o with Some o' => step (view pw) o' | None => view pw end /\ refs_ok (pstep pw o) /\
  match value_op pw o with Some o' => valid_op (view pw) o' | None => True end.
Proof.
  intros [I R] V W. destruct o; cbn [pstep value_op pvalid is_write] in *; try (destruct W; exact Logic.I).
  - split; [apply view_new_input, R | split; [| exact Logic.I]]. apply refs_heaps; auto. rewrite app_length. lia.
  - split; [apply view_new_output, R | split; [| exact Logic.I]]. apply refs_new_output, R.
  - split; [apply view_new_key, R | split; [| exact Logic.I]]. apply refs_heaps; auto. rewrite app_length. lia.
  - split; [apply view_make_keys | split; [| exact Logic.I]]. destruct R as [R1 R2 R3]. constructor; cbn; auto. apply Forall_app. split; [exact R3 |]. apply Forall_cons; [| apply Forall_nil]. apply Forall_app. split.
    + apply Forall_map. exact V.
    + apply Forall_forall. intros x Hx. apply repeat_spec in Hx. subst x. exact Logic.I.
  - split; [| split; [| exact V]].
    + cbn [step]. unfold p_new_builder, new_tx_builder, new_builder, new_tx, new_wit, new_body, view. cbn. rewrite map_app, map_length. reflexivity.
    + destruct R as [R1 R2 R3]. constructor; cbn; auto; apply Forall_app; split; auto; apply Forall_cons; constructor.
  - destruct V as [V1 V2]. split; [apply view_sign | split; [apply refs_sign; auto | exact V1]].
  - destruct V as [V1 V2]. split; [apply view_add_inputs | split; [apply refs_add_inputs; auto | exact V1]].
  - destruct V as [V1 V2]. split; [apply view_add_outputs | split; [apply refs_add_outputs; auto | exact V1]].
  - destruct (view_add_change pw b addr (conj I R) V) as [-> H]. split; [reflexivity | split; [exact H | exact V]].
  - destruct V as [V1 V2]. destruct (view_call pw o (conj I R) V1) as [-> H]; [destruct o; auto |]. split; [reflexivity | split; [exact H | exact V1]].
Qed.

(** ** Writes *)
Lemma inv_shape w w' : w_txs w' = w_txs w -> w_builders w' = w_builders w -> map (@length bytes) (w_arrays w') = map (@length bytes) (w_arrays w) ->
  length (w_bodies w') = length (w_bodies w) -> length (w_wits w') = length (w_wits w) -> Inv w -> Inv w'.
Proof.
  intros Et Eb Ea Lb Lw [H1 H2 H3 H4]. constructor; unfold obj, bld in *; rewrite ?Et, ?Eb, ?Lb, ?Lw; auto.
  intros b Hb. destruct (H3 b Hb) as (K1 & K2 & K3 & K4). split; [exact K1 |]. split; [exact K2 |].
  assert (La : length (w_arrays w') = length (w_arrays w)) by (rewrite <- (map_length (@length bytes)), Ea; apply map_length).
  split; [rewrite La; exact K3 |]. replace (length (nth _ (w_arrays w') [])) with (length (nth (s_arr (b_keys (nth b (w_builders w) nil_builder))) (w_arrays w) [])); [exact K4 |].
  rewrite <- !(map_nth (@length bytes)). rewrite Ea. reflexivity.
Qed.
Lemma write_refs pw o : refs_ok pw -> pvalid pw o -> is_write o -> refs_ok (pstep pw o).
Proof. intros R V W. destruct o; try destruct W; cbn [pstep]; apply refs_heaps; rewrite ?upd_length; auto. Qed.
Lemma write_inv pw o : Inv (view pw) -> is_write o -> Inv (view (pstep pw o)).
Proof.
  intros I W. refine (inv_shape (view pw) _ _ _ _ _ _ I); destruct o; try destruct W; cbn; rewrite ?map_length; try reflexivity;
    rewrite !map_map; apply map_ext; intros a; cbv beta; rewrite !map_length; reflexivity.
Qed.
Lemma is_write_dec o : {is_write o} + {~ is_write o}.
Proof. destruct o; cbn; auto. Qed.
Lemma pstep_inv pw o : PInv pw -> pvalid pw o -> PInv (pstep pw o).
Proof.
  intros P V. destruct (is_write_dec o) as [W | W].
  - destruct P as [I R]. split; [apply write_inv; auto | apply write_refs; auto].
  - destruct (pstep_view pw o P V W) as (E & R & Q). split; [rewrite E | exact R]. destruct P as [I _]. destruct (value_op pw o); [apply inv_step; auto | exact I].
Qed.
Lemma pinv_empty : PInv p_empty.
Proof. split; [exact inv_empty |]. constructor; constructor. Qed.
Lemma prun_inv l : forall pw, PInv pw -> pvalid_run pw l -> PInv (prun pw l).
Proof. induction l as [| o l IH]; intros pw P V; [exact P |]. destruct V as [V1 V2]. apply (IH (pstep pw o)); auto. apply pstep_inv; auto. Qed.
Lemma p_reachable_inv pw : p_reachable pw -> PInv pw.
Proof. intros (l & V & ->). apply prun_inv; [apply pinv_empty | exact V]. Qed.
End Pointers.
