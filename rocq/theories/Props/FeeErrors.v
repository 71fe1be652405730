(** C104: MinFee and AddChangeIfNeeded when the transaction cannot be serialised. *)
From Verif.Model Require Import Base Bech32 Hex Cbor Network Address Tx Builder.
From Verif.Spec Require Import CborSpec TxSpec MdSpec Utf8Spec MetadataSpec AddressSpec.
From Verif.Proofs Require Import Util CborFacts AddressFacts AddressParse TxFacts HeapFacts HeapProps AuxFacts FeeFacts.
From Verif.Props Require Import Shelley Tx Builder BuilderExact Metadata.

(** MinFee for every transaction: 0 if it cannot be serialised; otherwise the linear fee for the bytes of a transaction with the same
    inputs, metadata and first outputs. *)
Theorem C104_exact : forall (C : TxCrypto) (MO : MapOrder) n l t, runtime_order ->
  let good := (forall o, In o (Outputs (Body t)) -> ~ is_reward (OutAddress o)) /\ match Metadata t with None => True | Some m => encodable m end in
  (~ good -> fst (min_fee n l t) = 0) /\
  (good -> exists k t' s, fst (min_fee n l t) = (TxFeeFixed l + TxFeePerByte l * Z.of_nat (length s)) mod 2 ^ 64 /\ snd (tx_bytes k t') = Ok s /\
     Inputs (Body t') = Inputs (Body t) /\ firstn (length (Outputs (Body t))) (Outputs (Body t')) = Outputs (Body t) /\ TTL (Body t') = TTL (Body t) /\ Metadata t' = Metadata t).
Proof.
  intros C MO n l t RO good. unfold min_fee.
  set (body0 := {| Inputs := Inputs (Body t); Outputs := Outputs (Body t); Fee := Fee (Body t); TTL := TTL (Body t); AuxHash := [] |}).
  set (feeTx0 := {| Body := body0; Witness := Witness t; Valid := true; Metadata := Metadata t |}).
  set (body1 := match calc_aux n feeTx0 with Ok b' => b' | _ => body0 end).
  assert (B1 : Inputs body1 = Inputs (Body t) /\ Outputs body1 = Outputs (Body t) /\ TTL body1 = TTL (Body t)).
  { unfold body1, calc_aux. destruct (Metadata feeTx0) as [m |]; [destruct (enc_md (map_order n m)); repeat split | repeat split]. }
  set (ws := match Witness t with [] => [placeholder_witness] | w => w end). set (ph := {| OutAddress := placeholder_addr; OutAmount := placeholder_amount (Body t) |}).
  set (body2 := if total_inputs (Body t) =? total_outputs (Body t) then body1 else add_outputs body1 [ph]).
  assert (B2 : Inputs body2 = Inputs (Body t) /\ (exists r, Outputs body2 = Outputs (Body t) ++ r /\ forall o, In o r -> o = ph) /\ TTL body2 = TTL (Body t)).
  { destruct B1 as (E1 & E2 & E3). unfold body2. destruct (_ =? _).
    - split; [exact E1 |]. split; [exists []; rewrite app_nil_r; split; [exact E2 | intros o []] | exact E3].
    - split; [exact E1 |]. split; [exists [ph]; cbn [add_outputs Outputs]; rewrite E2; split; [reflexivity | intros o [<- | []]; reflexivity] | exact E3]. }
  clearbody body2. clear B1 body1 feeTx0 body0. set (feeTx2 := {| Body := body2; Witness := ws; Valid := true; Metadata := Metadata t |}).
  pose proof (C25_effect C MO (n + 1) l feeTx2) as EF. cbv zeta in EF. destruct (tx_fee (n + 1) l feeTx2) as [body3 r1] eqn:T1. cbn [fst] in EF. destruct EF as (F1 & F2 & _ & F4 & _). cbn [feeTx2 Body] in F1, F2, F4.
  set (feeTx3 := with_body feeTx2 (set_fee body3 (fee_or_zero r1))). destruct (tx_fee (n + 3) l feeTx3) as [b4 r2] eqn:T2. cbn [fst]. assert (R2 : r2 = snd (tx_fee (n + 3) l feeTx3)) by (rewrite T2; reflexivity).
  destruct B2 as (E1 & (r & E2 & E2') & E3).
  assert (O3 : Outputs (Body feeTx3) = Outputs (Body t) ++ r) by (cbn [feeTx3 Body with_body set_fee Outputs]; rewrite F2; exact E2).
  assert (G : (forall o, In o (Outputs (Body feeTx3)) -> ~ is_reward (OutAddress o)) /\ match Metadata feeTx3 with None => True | Some m => encodable m end <-> good).
  { unfold good. cbn [feeTx3 feeTx2 with_body Metadata]. rewrite O3. split; intros [G1 G2]; (split; [| exact G2]); intros o I.
    - apply G1. apply in_or_app. left. exact I.
    - apply in_app_or in I as [I | I]; [apply G1; exact I |]. rewrite (E2' o I). cbn. intros []. }
  destruct (C94_exact C MO (n + 3) l feeTx3 RO) as [C1 C2]. cbv zeta in C1, C2. split.
  - intros N. destruct C2 as (_ & _ & _ & Q); [rewrite G; exact N |]. rewrite R2, Q. reflexivity.
  - intros Y. destruct C1 as ((s & Q) & _); [apply G; exact Y |]. exists (n + 3)%nat, feeTx3, s. split; [rewrite R2, (C25_formula C MO (n + 3) l feeTx3 s Q); reflexivity |]. split; [exact Q |].
    split; [cbn [feeTx3 with_body Body set_fee Inputs]; rewrite F1; exact E1 |]. split; [rewrite O3, firstn_app, Nat.sub_diag, firstn_O, app_nil_r, firstn_all; reflexivity |].
    split; [cbn [feeTx3 with_body Body set_fee TTL]; rewrite F4; exact E3 | reflexivity].
Qed.
Print Assumptions C104_exact.

(** False: with an output or metadata that cannot be serialised AddChangeIfNeeded sets the fee to 0 and gives everything back as change,
    without an error. *)
Theorem C104_refuted : forall (C : TxCrypto) (MO : MapOrder) w b a, runtime_order -> reachable w -> (b < nbuilders w)%nat ->
  let old := builder_tx w b in let new := builder_tx (add_change_if_needed w b a) b in
  ~ ((forall o, In o (Outputs (Body old)) -> ~ is_reward (OutAddress o)) /\ match Metadata old with None => True | Some m => encodable m end) ->
  Fee (Body new) = 0 /\ Outputs (Body new) = Outputs (Body old) ++ [{| OutAddress := a; OutAmount := (sum_in (Body old) - sum_out (Body old)) mod 2 ^ 64 |}].
Proof.
  intros C MO w b a RO R Hb old new N. pose proof (C28_exact C MO w b a R Hb) as E. cbv zeta in E. fold old new in E. rewrite run_min_fee_eq in E. cbn [snd] in E. unfold mf in E. fold old in E.
  rewrite (proj1 (C104_exact C MO _ _ old RO) N) in E. rewrite E. cbn [Body Fee Outputs]. split; [reflexivity |]. rewrite Z.sub_0_r. reflexivity.
Qed.
Print Assumptions C104_refuted.
(** The mistake can be repaired before Build, which then signs a transaction without a fee: metadata that cannot be serialised during
    AddChangeIfNeeded, replaced or removed afterwards. *)
Theorem C104_built_refuted : forall (C : TxCrypto) (MO : MapOrder) w b a bad good n, runtime_order -> reachable w -> (b < nbuilders w)%nat ->
  let t := b_tx (bld w b) in
  (forall o, In o (Outputs (Body (builder_tx w b))) -> ~ is_reward (OutAddress o)) -> ~ is_reward a ->
  ~ encodable bad -> match good with None => True | Some m => encodable m end ->
  let w' := run w [OSetMetadata t (Some bad); OAddChange b a; OSetMetadata t good] in
  Fee (Body (builder_tx w' b)) = 0 /\ exists h, snd (tx_hash n (builder_tx w' b)) = Ok h.
Proof.
  intros C MO w b a bad good n RO R Hb t NR NA NB G w'. pose proof (reachable_inv w R) as I0. destruct (inv_builders w I0 b Hb) as (K & _). 
  set (w1 := step w (OSetMetadata t (Some bad))). assert (V1 : valid_op w (OSetMetadata t (Some bad))) by exact K.
  assert (R1 : reachable w1) by (apply reachable_step; assumption).
  assert (X : forall v m, reachable v -> bld v b = bld w b -> (b < nbuilders v)%nat -> builder_tx (set_metadata v t m) b = with_metadata (builder_tx v b) m /\ bld (set_metadata v t m) b = bld w b).
  { intros v m Rv Bv Hv. pose proof (reachable_inv v Rv) as Iv. destruct (inv_builders v Iv b Hv) as (Kv & _). rewrite Bv in Kv. fold t in Kv. split; [| rewrite <- Bv; reflexivity].
    unfold builder_tx, set_metadata, bld. cbn [w_builders put_tx]. fold (bld v b). rewrite Bv. fold t. unfold load, obj. cbn [w_txs w_bodies w_wits put_tx]. rewrite !nth_upd_same by exact Kv. reflexivity. }
  destruct (X w (Some bad) R eq_refl Hb) as [E1 L1]. change (set_metadata w t (Some bad)) with w1 in E1, L1. assert (Hb1 : (b < nbuilders w1)%nat) by exact Hb.
  set (w2 := step w1 (OAddChange b a)). assert (R2 : reachable w2) by (apply reachable_step; [exact R1 | exact Hb1]).
  assert (L2 : bld w2 b = bld w b) by (unfold w2; cbn [step]; rewrite bld_add_change; exact L1). assert (Hb2 : (b < nbuilders w2)%nat) by (unfold w2; cbn [step]; rewrite add_change_eq; exact Hb1).
  destruct (X w2 good R2 L2 Hb2) as [E3 _]. change (set_metadata w2 t good) with w' in E3.
  destruct (C104_refuted C MO w1 b a RO R1 Hb1) as [F O]; [rewrite E1; cbn [with_metadata Body Metadata]; intros [_ Q]; exact (NB Q) |]. change (add_change_if_needed w1 b a) with w2 in F, O.
  rewrite E3. split; [exact F |]. destruct (C94_exact C MO n (b_fees (bld w b)) (with_metadata (builder_tx w2 b) good) RO) as [C1 _]. cbv zeta in C1. apply C1. cbn [with_metadata Body Metadata]. split; [| exact G].
  rewrite O, E1. cbn [with_metadata Body]. intros o I. apply in_app_or in I as [I | [<- | []]]; [apply NR; exact I | exact NA].
Qed.
Print Assumptions C104_built_refuted.
Section Ex104.
#[local] Existing Instance ex_crypto.
#[local] Existing Instance id_order.
Example C104_example : let w := ex_plain in let w' := run w [OSetMetadata 0 (Some MdBad); OAddChange 0 ex_addr; OSetMetadata 0 None] in
  (forall o, In o (Outputs (Body (builder_tx w 0))) -> ~ is_reward (OutAddress o)) /\ ~ is_reward ex_addr /\ Fee (Body (builder_tx w' 0)) = 0 /\ map OutAmount (Outputs (Body (builder_tx w' 0))) = [1000000; 4000000] /\
  exists w2, build w' 0 = (w2, Ok 1%nat).
Proof.
  cbv zeta. split; [intros o I; cbn in I; repeat (destruct I as [<- | I]; [cbn; tauto |]); contradiction |]. split; [cbn; tauto |]. split; [vm_compute; reflexivity |]. split; [vm_compute; reflexivity |]. eexists. vm_compute. reflexivity.
Qed.
End Ex104.
