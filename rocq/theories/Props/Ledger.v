(** C105, C106: what the ledger asks of a transaction beyond its form. *)
From Verif.Model Require Import Base Edwards Bech32 Hex Cbor Network Address Tx Builder Bip32 Keys.
From Verif.Spec Require Import CborSpec TxSpec MdSpec.
From Verif.Proofs Require Import Util CborFacts AddressFacts AddressParse TxFacts HeapFacts HeapProps AuxFacts FeeFacts KeyFacts.
From Verif.Spec Require Import EdSpec Bip32Spec.
From Verif.Proofs Require Import Bip32Facts.
From Verif.Props Require Import Shelley Tx Builder BuilderExact Bip32.

(** ** C106: inputs are a set *)
Definition ref_eq_dec (x y : bytes * Z) : {x = y} + {x <> y}.
Proof. decide equality; [apply Z.eq_dec | apply (list_eq_dec Z.eq_dec)]. Defined.
(** What the ledger takes the inputs to be worth: each unspent output once. *)
Definition ledger_value (utxo : bytes * Z -> Z) (refs : list (bytes * Z)) : Z := fold_right Z.add 0 (map utxo (nodup ref_eq_dec refs)).

Lemma ledger_value_cons utxo r l : ledger_value utxo (r :: l) = if in_dec ref_eq_dec r l then ledger_value utxo l else utxo r + ledger_value utxo l.
Proof. unfold ledger_value. cbn [nodup]. destruct (in_dec ref_eq_dec r l); reflexivity. Qed.
Lemma ledger_value_le utxo l : (forall r, In r l -> 0 < utxo r) -> ledger_value utxo l <= fold_right Z.add 0 (map utxo l) /\ (ledger_value utxo l = fold_right Z.add 0 (map utxo l) <-> NoDup l).
Proof.
  induction l as [| r l IH]; intros P; [split; [reflexivity |]; split; [constructor | reflexivity] |].
  destruct IH as [L E]; [intros x I; apply P; right; exact I |]. rewrite ledger_value_cons. cbn [map fold_right]. specialize (P r (or_introl eq_refl)). destruct (in_dec ref_eq_dec r l) as [I | N].
  - split; [lia |]. split; [lia |]. intros D. inversion D. contradiction.
  - split; [lia |]. rewrite NoDup_cons_iff. split; [intros Q; split; [exact N | apply E; lia] | intros [_ D]; apply E in D; lia].
Qed.

Lemma put_own_body w b x : Inv w -> (b < nbuilders w)%nat -> builder_tx (put_body w (o_body (obj w (b_tx (bld w b)))) x) b = with_body (builder_tx w b) x.
Proof.
  intros I Hb. destruct (inv_builders w I b Hb) as (K & _). unfold builder_tx. change (bld (put_body w (o_body (obj w (b_tx (bld w b)))) x) b) with (bld w b).
  rewrite load_put_body by assumption. destruct (Nat.eq_dec _ _) as [_ | N]; [reflexivity | congruence].
Qed.

(** After AddChangeIfNeeded, with inputs that state their true amounts and cover the outputs: the ledger sees the transaction balanced
    exactly if no output is spent twice; otherwise it sees more paid out than taken in. *)
Theorem C106_exact : forall (C : TxCrypto) (MO : MapOrder) w b a utxo, reachable w -> (b < nbuilders w)%nat ->
  let old := Body (builder_tx w b) in let new := Body (builder_tx (add_change_if_needed w b a) b) in let refs := map (fun i => (TxHash i, Index i)) (Inputs new) in
  (forall i, In i (Inputs old) -> InAmount i = utxo (TxHash i, Index i) /\ 0 < InAmount i) ->
  0 <= sum_in old - sum_out old - Fee new < 2 ^ 64 ->
  (ledger_value utxo refs = sum_out new + Fee new <-> NoDup refs) /\ (~ NoDup refs -> ledger_value utxo refs < sum_out new + Fee new).
Proof.
  intros C MO w b a utxo R Hb old new refs F L. pose proof (proj2 (proj2 (C27_exact C MO w b a R Hb)) L) as B. cbv zeta in B. fold new in B.
  assert (EI : Inputs new = Inputs old) by (unfold new; rewrite (C28_exact C MO w b a R Hb); reflexivity).
  assert (S : sum_in new = fold_right Z.add 0 (map utxo refs)).
  { unfold sum_in, refs. rewrite EI, map_map. f_equal. apply map_ext_in. intros i I. apply F. exact I. }
  assert (P : forall r, In r refs -> 0 < utxo r) by (intros r I; unfold refs in I; rewrite EI in I; apply in_map_iff in I as (i & <- & I); destruct (F i I) as [<- Q]; exact Q).
  destruct (ledger_value_le utxo refs P) as [LE E]. rewrite <- B, S. split; [exact E |]. intros N. assert (ledger_value utxo refs <> fold_right Z.add 0 (map utxo refs)) by (intros Q; apply N, E, Q). lia.
Qed.
Print Assumptions C106_exact.
(** False: nothing keeps an input from being added twice, and it is then counted twice. *)
Theorem C106_refuted : forall (C : TxCrypto) (MO : MapOrder) w b a utxo i, reachable w -> (b < nbuilders w)%nat ->
  let w1 := step w (OAddInputs (b_tx (bld w b)) [i]) in
  let old := Body (builder_tx w1 b) in let new := Body (builder_tx (add_change_if_needed w1 b a) b) in let refs := map (fun i => (TxHash i, Index i)) (Inputs new) in
  In i (Inputs (Body (builder_tx w b))) ->
  (forall i, In i (Inputs old) -> InAmount i = utxo (TxHash i, Index i) /\ 0 < InAmount i) -> 0 <= sum_in old - sum_out old - Fee new < 2 ^ 64 ->
  sum_in new = sum_out new + Fee new /\ ledger_value utxo refs < sum_out new + Fee new.
Proof.
  intros C MO w b a utxo i R Hb w1 old new refs I F L. pose proof (reachable_inv w R) as I0. destruct (inv_builders w I0 b Hb) as (K & _). destruct (inv_txs w I0 _ K) as [K1 K2].
  assert (R1 : reachable w1) by (apply reachable_step; [exact R | exact K]). assert (Hb1 : (b < nbuilders w1)%nat) by exact Hb.
  assert (EO : Inputs old = Inputs (Body (builder_tx w b)) ++ [i]).
  { unfold old, w1. cbn [step]. unfold add_tx_inputs. rewrite put_own_body by assumption. reflexivity. }
  assert (EI : Inputs new = Inputs old) by (unfold new; rewrite (C28_exact C MO w1 b a R1 Hb1); reflexivity).
  split; [exact (proj2 (proj2 (C27_exact C MO w1 b a R1 Hb1)) L) |]. apply (C106_exact C MO w1 b a utxo R1 Hb1 F L). fold new. rewrite EI, EO, map_app. cbn [map]. intros D. apply NoDup_remove_2 in D. apply D. rewrite app_nil_r. apply in_map_iff. exists i. split; [reflexivity | exact I].
Qed.
Print Assumptions C106_refuted.
Section Ex106.
#[local] Existing Instance ex_crypto.
#[local] Existing Instance id_order.
Example C106_example : let w1 := step ex_plain (OAddInputs 0 [ex_input 5000000]) in let new := Body (builder_tx (add_change_if_needed w1 0 ex_addr) 0) in
  In (ex_input 5000000) (Inputs (Body (builder_tx ex_plain 0))) /\ sum_in new = 10000000 /\ sum_in new = sum_out new + Fee new /\ ledger_value (fun _ => 5000000) (map (fun i => (TxHash i, Index i)) (Inputs new)) = 5000000.
Proof. cbv zeta. split; [left; reflexivity |]. vm_compute. intuition congruence. Qed.
End Ex106.

(** ** C105: MaxTxSize and MinUTXOValue *)
(** The change output has what is left over, however little. *)
Theorem C105_change : forall (C : TxCrypto) (MO : MapOrder) w b a minimum, reachable w -> (b < nbuilders w)%nat ->
  let old := Body (builder_tx w b) in let new := Body (builder_tx (add_change_if_needed w b a) b) in
  0 <= sum_in old - sum_out old - Fee new < 2 ^ 64 ->
  ((forall o, In o (Outputs new) -> minimum <= OutAmount o) <-> (forall o, In o (Outputs old) -> minimum <= OutAmount o) /\ minimum <= sum_in old - sum_out old - Fee new).
Proof.
  intros C MO w b a minimum R Hb old new L. pose proof (C28_exact C MO w b a R Hb) as E. cbv zeta in E. fold old in E.
  assert (EF : Fee new = snd (run_min_fee w b)) by (unfold new; rewrite E; reflexivity).
  assert (EO : Outputs new = Outputs old ++ [{| OutAddress := a; OutAmount := sum_in old - sum_out old - Fee new |}]).
  { unfold new at 1. rewrite E. cbn [Body Outputs]. rewrite <- EF, Z.mod_small by exact L. reflexivity. }
  clear E EF. rewrite EO. split.
  - intros H. split; [intros o I; apply H, in_or_app; left; exact I |]. apply (H {| OutAddress := a; OutAmount := sum_in old - sum_out old - Fee new |}). apply in_or_app. right. left. reflexivity.
  - intros [H1 H2] o I. apply in_app_or in I as [I | [<- | []]]; [apply H1; exact I | exact H2].
Qed.
Print Assumptions C105_change.

Lemma sum_size_ge l : zlen l <= sum_size l.
Proof.
  induction l as [| i l IH]; [reflexivity |]. change (i :: l) with ([i] ++ l). rewrite sum_size_app, sum_one. unfold zlen in *. rewrite app_length. cbn [length].
  assert (1 <= Z.of_nat (length (cbor i))); [|lia]. assert (H : forall m n, (1 <= length (head m n))%nat) by (intros m n; unfold head; repeat match goal with |- context [if ?c then _ else _] => destruct c end; cbn [length]; lia).
  destruct i; cbn [cbor]; rewrite ?app_length; cbn [length]; try (match goal with |- context [head ?m ?n] => specialize (H m n) end); lia.
Qed.
Lemma tx_size_outputs t : zlen (Outputs (Body t)) < tx_size t.
Proof.
  unfold tx_size. pose proof (sum_size_ge (map out_item (Outputs (Body t)))) as G. unfold zlen in G at 1. rewrite map_length in G. fold (zlen (Outputs (Body t))) in G.
  pose proof (uint_size_range (zlen (Inputs (Body t)))). pose proof (uint_size_range (zlen (Outputs (Body t)))). pose proof (uint_size_range (Fee (Body t))).
  assert (0 <= ttl_size (TTL (Body t))) by (unfold ttl_size; pose proof (uint_size_range (TTL (Body t))); destruct (_ =? 0); lia).
  assert (0 <= aux_len t) by (unfold aux_len, aux_size; destruct (Metadata t); [lia |]; destruct (AuxHash (Body t)) as [| z l]; [lia |]; pose proof (uint_size_range (zlen (z :: l))); pose proof (zlen_nonneg (z :: l)); lia).
  assert (0 <= sum_size (map input_item (map in_pair (Inputs (Body t))))) by (pose proof (sum_size_ge (map input_item (map in_pair (Inputs (Body t))))); pose proof (zlen_nonneg (map input_item (map in_pair (Inputs (Body t))))); lia).
  unfold wit_size, meta_len. pose proof (zlen_nonneg (cbor (witness_item (map wit_pair (Witness t))))). pose proof (zlen_nonneg (cbor (the_meta (Metadata t)))). lia.
Qed.
(** False: whatever the bound and whatever has been done to the builder, it can be made to build and sign a transaction longer than that. *)
Theorem C105_size_refuted : forall (H : Hashes) (MO : MapOrder) w b o maximum n, hashes_ok -> runtime_order -> @reachable (tx_crypto H) MO w -> (b < nbuilders w)%nat ->
  tx_ok (builder_tx w b) -> (forall k, In k (builder_keys w b) -> bytes_len 96 k) -> zlen (builder_keys w b) < 2 ^ 64 ->
  out_ok o -> 0 <= maximum -> zlen (Outputs (Body (builder_tx w b))) + maximum < 2 ^ 64 ->
  let w1 := @step (tx_crypto H) MO w (OAddOutputs (b_tx (bld w b)) (repeat o (Z.to_nat maximum))) in
  exists w2 t2 s, @build (tx_crypto H) MO w1 b = (w2, Ok t2) /\ snd (@tx_bytes (tx_crypto H) MO n (load w2 t2)) = Ok s /\ maximum < zlen s.
Proof.
  intros H MO w b o maximum n HO RO R Hb K KS LK OK M L w1. pose proof (@reachable_inv (tx_crypto H) MO w R) as I0. destruct (inv_builders w I0 b Hb) as (K0 & _).
  assert (I1 : Inv w1) by (apply inv_step; [exact I0 | exact K0]). assert (Hb1 : (b < nbuilders w1)%nat) by exact Hb.
  assert (EB : builder_tx w1 b = with_body (builder_tx w b) (add_outputs (Body (builder_tx w b)) (repeat o (Z.to_nat maximum)))).
  { unfold w1. cbn [step]. unfold add_tx_outputs. rewrite put_own_body by assumption. reflexivity. }
  assert (EK : builder_keys w1 b = builder_keys w b) by reflexivity.
  assert (KT : tx_ok (builder_tx w1 b)).
  { rewrite EB. destruct K as ((B1 & B2 & B3 & B4 & B5) & W & MM). split; [| split; assumption]. cbn [Body with_body add_outputs]. split; [exact B1 |]. split; [apply Forall_app; split; [exact B2 | apply Forall_forall; intros x I; apply repeat_spec in I; subst x; exact OK] |].
    split; [exact B3 |]. split; [| exact B5]. cbn [add_outputs Outputs]. unfold zlen in *. rewrite app_length, repeat_length. lia. }
  assert (EO : zlen (Outputs (Body (builder_tx w1 b))) = zlen (Outputs (Body (builder_tx w b))) + maximum) by (rewrite EB; cbn [Body with_body add_outputs Outputs]; unfold zlen; rewrite app_length, repeat_length; lia).
  clearbody w1. clear EB. destruct (C69_total H MO w1 b HO RO KT) as (w2 & t2 & E); [rewrite EK; exact KS |]. exists w2, t2.
  destruct (@build_loads (tx_crypto H) MO _ _ _ _ I1 Hb1 E) as (h & ws & H1 & H2 & H3 & _). rewrite (tx_hash_spec _ _ RO (tx_crypto_hash HO) KT) in H1, H3. cbn [fst] in H3.
  destruct (@sign_all_ok (tx_crypto H) _ _ _ (@tx_crypto_sizes H) H2) as (W1 & _ & W3). rewrite EK in W3.
  assert (KT2 : tx_ok (load w2 t2)).
  { rewrite H3. split; [apply aux_body_ok; [exact (tx_crypto_hash HO) | apply KT] |]. split; [split; [exact W1 | cbn [Witness]; unfold zlen in *; rewrite W3; exact LK] | apply KT]. }
  assert (EO2 : Outputs (Body (load w2 t2)) = Outputs (Body (builder_tx w1 b))) by (rewrite H3; cbn [Body]; unfold aux_body; destruct (Metadata (builder_tx w1 b)); reflexivity).
  destruct (@tx_bytes_size (tx_crypto H) MO n _ RO (tx_crypto_hash HO) KT2) as (s & Es & Sz). exists s. split; [exact E |]. split; [exact Es |]. rewrite Sz.
  pose proof (tx_size_outputs (load w2 t2)) as T. rewrite EO2, EO in T. pose proof (zlen_nonneg (Outputs (Body (builder_tx w b)))). lia.
Qed.
Print Assumptions C105_size_refuted.
(** The bound of the main network, on the history of C69. *)
Example C105_size_example : hashes_ok (H := toy_hashes) /\ out_ok {| OutAddress := ex_addr; OutAmount := 1000000 |} /\ zlen (builder_keys C69_world 0) < 2 ^ 64 /\ zlen (Outputs (Body (builder_tx C69_world 0))) + 16384 < 2 ^ 64.
Proof. split; [exact toy_hashes_ok |]. split; [apply placeholder_ok; lia |]. split; reflexivity. Qed.
Section Ex105.
#[local] Existing Instance ex_crypto.
#[local] Existing Instance id_order.
(** False: every output that was asked for is above the minimum, the change is not, and the transaction is built all the same. *)
Theorem C105_refuted : exists w b a minimum w2 t2, reachable w /\ (b < nbuilders w)%nat /\ 0 < minimum /\ (forall o, In o (Outputs (Body (builder_tx w b))) -> minimum <= OutAmount o) /\
  build (add_change_if_needed w b a) b = (w2, Ok t2) /\ exists o, In o (Outputs (Body (load w2 t2))) /\ 0 < OutAmount o < minimum.
Proof.
  set (h := firstn 6 (ex_history [repeat 7 96] 5000000 4830000)). exists (run empty_world h), 0%nat, ex_addr, 1000000. destruct (build (add_change_if_needed (run empty_world h) 0 ex_addr) 0) as [w2 r] eqn:E.
  assert (R : r = Ok 1%nat) by (change r with (snd (w2, r)); rewrite <- E; vm_compute; reflexivity). subst r. exists w2, 1%nat.
  split; [exists h; split; [vm_compute; repeat split; lia | reflexivity] |]. split; [vm_compute; lia |]. split; [lia |]. split; [intros o [<- | []]; vm_compute; discriminate |]. split; [reflexivity |].
  change w2 with (fst (w2, Ok 1%nat)). rewrite <- E. clear E. eexists. split; [vm_compute; right; left; reflexivity |]. vm_compute. split; reflexivity.
Qed.
Print Assumptions C105_refuted.
End Ex105.
