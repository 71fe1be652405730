(** C117: the minimum fee when inputs or outputs are added. *)
From Verif.Model Require Import Base Cbor Network Address Tx Builder.
From Verif.Spec Require Import CborSpec TxSpec MdSpec Values World CountSpec.
From Verif.Proofs Require Import Util CborFacts TxFacts HeapFacts HeapProps FeeFacts.
From Verif.Props Require Import Tx Builder.

Lemma sum_size_total {A} (f : A -> item) l : sum_size (map f l) = total (map (fun x => zlen (cbor (f x))) l).
Proof. unfold sum_size, total. induction l as [| x l IH]; [reflexivity |]. cbn [map flat_map fold_right]. rewrite zlen_app, IH. reflexivity. Qed.
Lemma total_app l l' : total (l ++ l') = total l + total l'.
Proof. unfold total. induction l as [| x l IH]; cbn [app fold_right]; lia. Qed.
Lemma total_pos {A} (f : A -> item) l : 0 <= total (map (fun x => zlen (cbor (f x))) l).
Proof. unfold total, zlen. induction l as [| x l IH]; cbn [map fold_right]; lia. Qed.

Section Monotone.
Context {C : TxCrypto} {MO : MapOrder}.
(** The rest of what MinFee measures. *)
Definition rest (t : Tx) : Z := 6 + ttl_size (TTL (Body t)) + (match Metadata t with Some _ => 35 | None => 0 end) + wit_size (fee_wit t) + meta_len (Metadata t).
Lemma fee_tx_counted t x : tx_size (fee_tx t x) = counted (Body t) + uint_size x + rest t.
Proof.
  unfold tx_size, counted, rest, aux_len, balanced. cbn [fee_tx Body Inputs Outputs Fee TTL AuxHash Witness Metadata]. change (aux_size []) with 0.
  rewrite map_map, sum_size_total, map_app, sum_size_app, sum_size_total. unfold ph_out. rewrite total_inputs_sum, total_outputs_sum. change (u64 ?x) with (x mod 2 ^ 64).
  destruct (sum_in (Body t) mod 2 ^ 64 =? sum_out (Body t) mod 2 ^ 64); cbn [map].
  - rewrite app_nil_r. change (sum_size []) with 0. lia.
  - rewrite sum_one, out_size by apply u64_range. rewrite ph_addr_size. unfold placeholder_size, placeholder_amount. rewrite totals_diff.
    assert (E : u64 (u64 (sum_in (Body t) - sum_out (Body t)) - 200000) = (sum_in (Body t) - sum_out (Body t) - 200000) mod 2 ^ 64) by apply u64_sub_l. rewrite E.
    assert (L : zlen (Outputs (Body t) ++ [{| OutAddress := placeholder_addr; OutAmount := (sum_in (Body t) - sum_out (Body t) - 200000) mod 2 ^ 64 |}]) = zlen (Outputs (Body t)) + 1) by (unfold zlen; rewrite app_length; cbn [length]; lia). rewrite L. lia.
Qed.
Lemma counted_pos b : 0 <= counted b.
Proof.
  unfold counted, placeholder_size. pose proof (total_pos (fun i => input_item (in_pair i)) (Inputs b)). pose proof (total_pos out_item (Outputs b)). pose proof (uint_size_range (zlen (Inputs b))). pose proof (uint_size_range (zlen (Outputs b))).
  pose proof (uint_size_range (zlen (Outputs b) + 1)). pose proof (uint_size_range ((sum_in b - sum_out b - 200000) mod 2 ^ 64)). destruct (balanced b); lia.
Qed.
Lemma rest_pos t : 0 <= rest t.
Proof. unfold rest, ttl_size, wit_size, meta_len, zlen. pose proof (uint_size_range (TTL (Body t))). destruct (_ =? 0); destruct (Metadata t); lia. Qed.
Lemma rest_size t : rest t + counted (Body t) <= tx_size t + 200.
Proof.
  assert (WS : wit_size (fee_wit t) <= wit_size (Witness t) + 104).
  { unfold fee_wit. destruct (Witness t) as [| x r]; [vm_compute; discriminate | lia]. }
  unfold rest, counted, tx_size, aux_len, placeholder_size. rewrite map_map, !sum_size_total. pose proof (uint_size_range (Fee (Body t))).
  pose proof (uint_size_range (zlen (Outputs (Body t)))). pose proof (uint_size_range (zlen (Outputs (Body t)) + 1)). pose proof (uint_size_range ((sum_in (Body t) - sum_out (Body t) - 200000) mod 2 ^ 64)).
  assert (AS : 0 <= aux_size (AuxHash (Body t))) by (unfold aux_size, zlen; destruct (AuxHash (Body t)) as [| z r]; [lia |]; pose proof (uint_size_range (Z.of_nat (length (z :: r)))); lia).
  destruct (Metadata t); destruct (balanced (Body t)); lia.
Qed.

(** Two bodies with the same fee and TTL, in transactions that are otherwise equal. *)
Lemma fees_compare l t t' : rest t' = rest t -> Fee (Body t') = Fee (Body t) -> 0 <= TxFeeFixed l -> 0 <= TxFeePerByte l ->
  TxFeeFixed l + TxFeePerByte l * (counted (Body t) + 9 + rest t) < 2 ^ 64 -> TxFeeFixed l + TxFeePerByte l * (counted (Body t') + 9 + rest t) < 2 ^ 64 ->
  (fee_for l t (fee_for l t (Fee (Body t))) <= fee_for l t' (fee_for l t' (Fee (Body t'))) <-> TxFeePerByte l = 0 \/ counted (Body t) <= counted (Body t')).
Proof.
  intros ER EF HF HP B B'. pose proof (counted_pos (Body t)) as P1. pose proof (counted_pos (Body t')) as P2. pose proof (rest_pos t) as P3.
  assert (V : forall s, 0 <= s -> TxFeeFixed l + TxFeePerByte l * (s + 9 + rest t) < 2 ^ 64 -> forall x, u64 (TxFeeFixed l + TxFeePerByte l * (s + uint_size x + rest t)) = TxFeeFixed l + TxFeePerByte l * (s + uint_size x + rest t)).
  { intros s Hs Hb x. pose proof (uint_size_range x). apply Z.mod_small. split; [nia |]. eapply Z.le_lt_trans; [| exact Hb]. nia. }
  unfold fee_for. rewrite !fee_tx_counted, ER, EF. rewrite !(V _ P1 B), !(V _ P2 B'). set (c := counted (Body t)) in *. set (c' := counted (Body t')) in *. set (r := rest t) in *. set (F := TxFeeFixed l) in *. set (P := TxFeePerByte l) in *. set (u := uint_size (Fee (Body t))). clearbody c c' r F P u.
  split.
  - intros H. destruct (Z.eq_dec P 0) as [-> | N]; [left; reflexivity | right]. destruct (Z_le_gt_dec c c') as [L | L]; [exact L | exfalso].
    assert (U : uint_size (F + P * (c' + u + r)) <= uint_size (F + P * (c + u + r))) by (apply uint_size_mono; nia). nia.
  - intros [-> | L]; [lia |]. assert (U : uint_size (F + P * (c + u + r)) <= uint_size (F + P * (c' + u + r))) by (apply uint_size_mono; nia). nia.
Qed.

Lemma builder_put w b body : Inv w -> (b < nbuilders w)%nat -> builder_tx (put_body w (o_body (obj w (b_tx (bld w b)))) body) b = with_body (builder_tx w b) body /\ b_fees (bld (put_body w (o_body (obj w (b_tx (bld w b)))) body) b) = b_fees (bld w b).
Proof.
  intros I V. destruct (inv_builders w I b V) as (Ht & _). destruct (inv_txs w I _ Ht) as [Hb _]. split; [| reflexivity]. unfold builder_tx. change (bld (put_body w (o_body (obj w (b_tx (bld w b)))) body) b) with (bld w b).
  unfold load, with_body. cbn [Body Witness Valid Metadata]. change (obj (put_body w (o_body (obj w (b_tx (bld w b)))) body) (b_tx (bld w b))) with (obj w (b_tx (bld w b))). unfold put_body. cbn [w_bodies w_wits]. rewrite nth_upd_same by exact Hb. reflexivity.
Qed.
End Monotone.

(** Full statement: adding inputs or outputs does not lower the minimum fee. Exactly when that is so, for any parameters and as long as
    the fees stay below 2^64: when what MinFee counts for the inputs and outputs, with the placeholder for change, does not shrink. *)
Theorem C117_exact : forall (C : TxCrypto) (MO : MapOrder) w b o n s, runtime_order -> hash_ok -> reachable w -> (b < nbuilders w)%nat ->
  (exists l, o = OAddInputs (b_tx (bld w b)) l) \/ (exists l, o = OAddOutputs (b_tx (bld w b)) l) ->
  let t := builder_tx w b in let t' := builder_tx (step w o) b in let l := b_fees (bld w b) in
  tx_ok t -> tx_ok t' -> zlen (Outputs (Body t')) + 1 < 2 ^ 64 -> snd (tx_bytes n t') = Ok s ->
  0 <= TxFeeFixed l -> 0 <= TxFeePerByte l -> TxFeeFixed l + TxFeePerByte l * (zlen s + 300) < 2 ^ 64 ->
  (mf w b <= mf (step w o) b <-> TxFeePerByte l = 0 \/ counted (Body t) <= counted (Body t')).
Proof.
  intros C MO w b o n s RO HO Rw V Ho t t' l K K' L Es HF HP B. pose proof (reachable_inv w Rw) as I.
  assert (X : exists body, t' = with_body t body /\ b_fees (bld (step w o) b) = l /\ Fee body = Fee (Body t) /\ TTL body = TTL (Body t) /\ AuxHash body = AuxHash (Body t) /\ (exists li, Inputs body = Inputs (Body t) ++ li) /\ (exists lo, Outputs body = Outputs (Body t) ++ lo)).
  { destruct Ho as [[q ->] | [q ->]]; subst t'; cbn [step]; unfold add_tx_inputs, add_tx_outputs.
    - destruct (builder_put w b (add_inputs (Body (load w (b_tx (bld w b)))) q) I V) as [-> ->]. eexists. split; [reflexivity |]. split; [reflexivity |]. split; [reflexivity |]. split; [reflexivity |]. split; [reflexivity |]. split; [exists q; reflexivity |]. exists []. rewrite app_nil_r. reflexivity.
    - destruct (builder_put w b (add_outputs (Body (load w (b_tx (bld w b)))) q) I V) as [-> ->]. eexists. split; [reflexivity |]. split; [reflexivity |]. split; [reflexivity |]. split; [reflexivity |]. split; [reflexivity |]. split; [exists []; rewrite app_nil_r; reflexivity | exists q; reflexivity]. }
  destruct X as (body & Et & El & E1 & E2 & E3 & (li & E4) & (lo & E5)).
  assert (ER : rest t' = rest t) by (rewrite Et; unfold rest, with_body; cbn [Body Metadata Witness]; rewrite E2; reflexivity).
  unfold mf. rewrite El. fold t t' l. rewrite (min_fee_spec _ l t RO HO K), (min_fee_spec _ l t' RO HO K' L); cbn [fst].
  2:{ rewrite Et in L. cbn [with_body Body] in L. rewrite E5 in L. unfold zlen in *. rewrite app_length in L. lia. }
  destruct (tx_bytes_size n t' RO HO K') as (s' & Es' & Ls). rewrite Es in Es'. assert (s = s') by congruence. subst s'. rewrite Ls in B.
  assert (ST : tx_size t <= tx_size t').
  { rewrite Et. unfold tx_size, aux_len, with_body. cbn [Body Metadata Witness]. cbv zeta. rewrite E1, E2, E3, E4, E5, !map_app, !sum_size_app. assert (M1 : uint_size (zlen (Inputs (Body t))) <= uint_size (zlen (Inputs (Body t) ++ li))) by (apply uint_size_mono; unfold zlen; rewrite app_length; lia).
    assert (M2 : uint_size (zlen (Outputs (Body t))) <= uint_size (zlen (Outputs (Body t) ++ lo))) by (apply uint_size_mono; unfold zlen; rewrite app_length; lia). assert (S1 : 0 <= sum_size (map input_item (map in_pair li))) by (unfold sum_size, zlen; lia). assert (S2 : 0 <= sum_size (map out_item lo)) by (unfold sum_size, zlen; lia). clear - M1 M2 S1 S2. clearbody t. unfold bytes in *. destruct (Metadata t); lia. }
  pose proof (rest_size t) as R1. pose proof (rest_size t') as R2. rewrite ER in R2.
  apply fees_compare; try assumption; [rewrite Et; exact E1 | |]; (eapply Z.le_lt_trans; [| exact B]); nia.
Qed.
Print Assumptions C117_exact.

Lemma sum_in_app b l : sum_in (add_inputs b l) = sum_in b + total (map InAmount l).
Proof. unfold sum_in. cbn [add_inputs Inputs]. rewrite map_app. apply total_app. Qed.
Lemma in_size i : length (TxHash i) = 32%nat -> 0 <= Index i < 2 ^ 16 -> 36 <= zlen (cbor (input_item (in_pair i))) <= 38.
Proof.
  intros L H. unfold input_item, in_pair. cbn [fst snd cbor flat_map length app]. rewrite app_nil_r. unfold zlen. rewrite !app_length. pose proof (head_size 0 (Index i) ltac:(lia)) as E. unfold zlen in E. unfold bytes in *. rewrite L. pose proof (head_size 2 (Z.of_nat 32) ltac:(lia)) as E2. unfold zlen in E2.
  change (length (head 4 (Z.of_nat 2))) with 1%nat. change (uint_size (Z.of_nat 32)) with 2 in E2. assert (U : 1 <= uint_size (Index i) <= 3) by (unfold uint_size; destruct (Index i <? 24) eqn:Q1; [lia |]; destruct (Index i <? 2 ^ 8) eqn:Q2; [lia |]; destruct (Index i <? 2 ^ 16) eqn:Q3; lia). lia.
Qed.
Lemma uint_size_step n : 0 <= n -> uint_size (n + 1) <= uint_size n + 4.
Proof.
  intros H. unfold uint_size. destruct (Z.ltb_spec n 24), (Z.ltb_spec (n + 1) 24), (Z.ltb_spec n (2 ^ 8)), (Z.ltb_spec (n + 1) (2 ^ 8)); try lia.
  all: destruct (Z.ltb_spec n (2 ^ 16)), (Z.ltb_spec (n + 1) (2 ^ 16)); try lia. all: destruct (Z.ltb_spec n (2 ^ 32)), (Z.ltb_spec (n + 1) (2 ^ 32)); lia.
Qed.
Lemma total_in l : Forall (fun i => length (TxHash i) = 32%nat /\ 0 <= Index i < 2 ^ 16) l -> 36 * zlen l <= total (map (fun i => zlen (cbor (input_item (in_pair i)))) l).
Proof. unfold total, zlen. induction 1 as [| i l [H1 H2] _ IH]; cbn [map fold_right length]; [lia |]. pose proof (in_size i H1 H2) as S. unfold zlen in *. lia. Qed.
Lemma counted_inputs b l : Forall (fun i => length (TxHash i) = 32%nat /\ 0 <= Index i < 2 ^ 16) l -> (balanced b = true \/ balanced (add_inputs b l) = false) -> counted b <= counted (add_inputs b l).
Proof.
  intros F H. destruct l as [| i l]; [unfold add_inputs; rewrite app_nil_r; destruct b; apply Z.le_refl |].
  pose proof (total_in _ F) as T. set (q := i :: l) in *. assert (Lq : 1 <= zlen q) by (unfold zlen, q; cbn [length]; lia). clearbody q.
  unfold counted, placeholder_size. set (c := balanced (add_inputs b q)) in *. set (p := (sum_in (add_inputs b q) - sum_out (add_inputs b q) - 200000) mod 2 ^ 64). clearbody c p. cbn [add_inputs Inputs Outputs]. rewrite map_app, total_app.
  assert (M : uint_size (zlen (Inputs b)) <= uint_size (zlen (Inputs b ++ q))) by (apply uint_size_mono; unfold zlen; rewrite app_length; lia).
  assert (M2 : uint_size (zlen (Outputs b)) <= uint_size (zlen (Outputs b) + 1)) by (apply uint_size_mono; lia).
  pose proof (uint_size_range p). pose proof (uint_size_range ((sum_in b - sum_out b - 200000) mod 2 ^ 64)). destruct (balanced b), c; destruct H as [H | H]; try discriminate H; lia.
Qed.
Lemma out_size_min o : 0 <= OutAmount o -> zlen (cbor (out_item o)) = 1 + zlen (cbor (addr_item (OutAddress o))) + uint_size (OutAmount o).
Proof. intros H. destruct o as [a x]. apply out_size. exact H. Qed.
Lemma total_out l : Forall (fun o => 0 <= OutAmount o /\ 7 <= zlen (cbor (addr_item (OutAddress o)))) l -> 9 * zlen l <= total (map (fun o => zlen (cbor (out_item o))) l).
Proof.
  unfold total, zlen. induction 1 as [| o l [H1 H2] _ IH]; cbn [map fold_right length]; [lia |]. pose proof (out_size_min o H1) as S. pose proof (uint_size_range (OutAmount o)). unfold zlen in *. lia.
Qed.
Lemma counted_outputs b l : Forall (fun o => 0 <= OutAmount o /\ 7 <= zlen (cbor (addr_item (OutAddress o)))) l -> (balanced b = true \/ balanced (add_outputs b l) = false) -> counted b <= counted (add_outputs b l).
Proof.
  intros F H. destruct l as [| i l]; [unfold add_outputs; rewrite app_nil_r; destruct b; apply Z.le_refl |].
  pose proof (total_out _ F) as T. set (q := i :: l) in *. assert (Lq : 1 <= zlen q) by (unfold zlen, q; cbn [length]; lia). clearbody q.
  unfold counted, placeholder_size. set (c := balanced (add_outputs b q)) in *. set (p := (sum_in (add_outputs b q) - sum_out (add_outputs b q) - 200000) mod 2 ^ 64). clearbody c p. cbn [add_outputs Inputs Outputs]. rewrite map_app, total_app.
  assert (M : uint_size (zlen (Outputs b)) <= uint_size (zlen (Outputs b ++ q))) by (apply uint_size_mono; unfold zlen; rewrite app_length; lia).
  assert (M2 : uint_size (zlen (Outputs b) + 1) <= uint_size (zlen (Outputs b ++ q) + 1)) by (apply uint_size_mono; unfold zlen; rewrite app_length; lia).
  assert (M3 : uint_size (zlen (Outputs b)) <= uint_size (zlen (Outputs b ++ q) + 1)) by (apply uint_size_mono; unfold zlen; rewrite app_length; lia).
  pose proof (uint_size_range p). pose proof (uint_size_range ((sum_in b - sum_out b - 200000) mod 2 ^ 64)). destruct (balanced b), c; destruct H as [H | H]; try discriminate H; lia.
Qed.

(** The fee does not fall unless the transaction becomes balanced: inputs with hashes of 32 bytes, outputs whose addresses take 7 bytes
    or more. *)
Theorem C117_partial : forall (C : TxCrypto) (MO : MapOrder) w b o n s, runtime_order -> hash_ok -> reachable w -> (b < nbuilders w)%nat ->
  (exists l, o = OAddInputs (b_tx (bld w b)) l /\ Forall (fun i => length (TxHash i) = 32%nat /\ 0 <= Index i < 2 ^ 16) l) \/
  (exists l, o = OAddOutputs (b_tx (bld w b)) l /\ Forall (fun o => 0 <= OutAmount o /\ 7 <= zlen (cbor (addr_item (OutAddress o)))) l) ->
  let t := builder_tx w b in let t' := builder_tx (step w o) b in let l := b_fees (bld w b) in
  tx_ok t -> tx_ok t' -> zlen (Outputs (Body t')) + 1 < 2 ^ 64 -> snd (tx_bytes n t') = Ok s ->
  0 <= TxFeeFixed l -> 0 <= TxFeePerByte l -> TxFeeFixed l + TxFeePerByte l * (zlen s + 300) < 2 ^ 64 ->
  sum_in (Body t) mod 2 ^ 64 = sum_out (Body t) mod 2 ^ 64 \/ sum_in (Body t') mod 2 ^ 64 <> sum_out (Body t') mod 2 ^ 64 ->
  mf w b <= mf (step w o) b.
Proof.
  intros C MO w b o n s RO HO Rw V Ho t t' l K K' L Es HF HP B H. pose proof (reachable_inv w Rw) as I. apply (C117_exact C MO w b o n s RO HO Rw V); try assumption.
  - destruct Ho as [(q & -> & _) | (q & -> & _)]; [left | right]; exists q; reflexivity.
  - right. fold t t'. assert (H' : balanced (Body t) = true \/ balanced (Body t') = false) by (destruct H as [H | H]; [left; apply Z.eqb_eq; exact H | right; apply Z.eqb_neq; exact H]).
    destruct Ho as [(q & -> & F) | (q & -> & F)]; subst t'; cbn [step] in *; unfold add_tx_inputs, add_tx_outputs in *.
    + destruct (builder_put w b (add_inputs (Body (load w (b_tx (bld w b)))) q) I V) as [E _]. rewrite E in *. apply counted_inputs; assumption.
    + destruct (builder_put w b (add_outputs (Body (load w (b_tx (bld w b)))) q) I V) as [E _]. rewrite E in *. apply counted_outputs; assumption.
Qed.
Print Assumptions C117_partial.

(** False for every transaction that one input balances: with it the minimum fee is lower than without. *)
Theorem C117_refuted : forall (C : TxCrypto) (MO : MapOrder) w b i n s, runtime_order -> hash_ok -> reachable w -> (b < nbuilders w)%nat ->
  let o := OAddInputs (b_tx (bld w b)) [i] in
  let t := builder_tx w b in let t' := builder_tx (step w o) b in let l := b_fees (bld w b) in
  tx_ok t -> tx_ok t' -> zlen (Outputs (Body t')) + 1 < 2 ^ 64 -> snd (tx_bytes n t') = Ok s ->
  0 <= TxFeeFixed l -> 0 < TxFeePerByte l -> TxFeeFixed l + TxFeePerByte l * (zlen s + 300) < 2 ^ 64 ->
  length (TxHash i) = 32%nat -> 0 < InAmount i < 2 ^ 64 -> sum_in (Body t) + InAmount i = sum_out (Body t) ->
  mf (step w o) b < mf w b.
Proof.
  intros C MO w b i n s RO HO Rw V o t t' l K K' L Es HF HP B Hi Ai Eq. pose proof (reachable_inv w Rw) as I.
  pose proof (C117_exact C MO w b o n s RO HO Rw V (or_introl (ex_intro _ [i] eq_refl)) K K' L Es HF ltac:(subst l; lia) B) as X. fold t t' l in X.
  destruct (Z_lt_le_dec (mf (step w o) b) (mf w b)) as [Y | Y]; [exact Y | exfalso]. apply X in Y as [Y | Y]; [lia |]. clear X.
  assert (Et : t' = with_body t (add_inputs (Body t) [i])) by (subst t'; apply (builder_put w b _ I V)).
  assert (II : 0 <= Index i < 2 ^ 16).
  { rewrite Et in K'. destruct K' as ((F & _) & _). cbn [with_body Body add_inputs Inputs] in F. apply Forall_app in F as [_ F]. inversion F as [| ? ? Q _]; subst. apply Q. }
  rewrite Et in Y. cbn [with_body Body] in Y.
  assert (B1 : balanced (Body t) = false).
  { apply Z.eqb_neq. rewrite <- Eq. intros Q. assert (Z0 : InAmount i mod 2 ^ 64 = 0) by (replace (InAmount i) with ((sum_in (Body t) + InAmount i) - sum_in (Body t)) by lia; rewrite Zminus_mod, <- Q, Z.sub_diag; reflexivity).
    rewrite Z.mod_small in Z0 by lia. lia. }
  assert (B2 : balanced (add_inputs (Body t) [i]) = true) by (apply Z.eqb_eq; rewrite sum_in_app; cbn [map total fold_right]; change (sum_out (add_inputs (Body t) [i])) with (sum_out (Body t)); rewrite <- Eq; f_equal; lia).
  unfold counted in Y. rewrite B1, B2 in Y. cbn [add_inputs Inputs Outputs] in Y. rewrite map_app, total_app in Y. cbn [map total fold_right] in Y. unfold placeholder_size in Y.
  pose proof (in_size i Hi II) as S. assert (E1 : zlen (Inputs (Body t) ++ [i]) = zlen (Inputs (Body t)) + 1) by (unfold zlen; rewrite app_length; cbn [length]; lia). rewrite E1 in Y.
  pose proof (uint_size_step (zlen (Inputs (Body t))) ltac:(unfold zlen; lia)) as U1. assert (U2 : uint_size (zlen (Outputs (Body t))) <= uint_size (zlen (Outputs (Body t)) + 1)) by (apply uint_size_mono; lia).
  pose proof (uint_size_range ((sum_in (Body t) - sum_out (Body t) - 200000) mod 2 ^ 64)) as U3. unfold total in *.
  set (q1 := zlen (cbor (input_item (in_pair i)))) in *. set (q2 := fold_right Z.add 0 (map (fun i0 => zlen (cbor (input_item (in_pair i0)))) (Inputs (Body t)))) in *. clearbody q1 q2. lia.
Qed.
Print Assumptions C117_refuted.
(** 1 ada in, 5 ada out; a second input of 4 ada takes the fee from 166821 to 165369 lovelace. *)
Section Ex117.
#[local] Existing Instance ex_crypto.
#[local] Existing Instance id_order.
Definition C117_history : list op :=
  [OMakeKeys ex_keys 0; ONewBuilder ex_fees {| s_arr := 0; s_off := 0; s_len := 1 |}; OAddInputs 0 [ex_input 1000000]; OAddOutputs 0 [ex_out TestNet 5000000]].
Definition C117_world : World := run empty_world C117_history.
Definition C117_input : TxInput := {| TxHash := repeat 8 32; Index := 0; InAmount := 4000000 |}.
Example C117_example : reachable C117_world /\ sum_in (Body (builder_tx C117_world 0)) + InAmount C117_input = sum_out (Body (builder_tx C117_world 0)) /\
  (exists s, snd (tx_bytes 0 (builder_tx (step C117_world (OAddInputs (b_tx (bld C117_world 0)) [C117_input])) 0)) = Ok s /\ 155381 + 44 * (zlen s + 300) < 2 ^ 64) /\
  (mf C117_world 0, mf (step C117_world (OAddInputs (b_tx (bld C117_world 0)) [C117_input])) 0) = (166821, 165369).
Proof.
  split; [exists C117_history; split; [| reflexivity]; cbn [valid_run C117_history]; split; [exact Logic.I |]; split; [cbn; lia |]; repeat (split; [cbv [step make_keys new_tx_builder]; cbn; lia |]); exact Logic.I |].
  split; [vm_compute; reflexivity |]. split; [| vm_compute; reflexivity]. eexists. split; [vm_compute; reflexivity |]. vm_compute. reflexivity.
Qed.
End Ex117.
