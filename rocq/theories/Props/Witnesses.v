(** C115: the witnesses of a built transaction are those its inputs need. *)
From Verif.Model Require Import Base Edwards Bech32 Hex Cbor Network Address Tx Builder Bip32 Keys Wallet.
From Verif.Spec Require Import CborSpec TxSpec MdSpec EdSpec Bip32Spec WalletSpec WitnessSpec.
From Verif.Proofs Require Import Util CborFacts AddressFacts TxFacts HeapFacts HeapProps AuxFacts FeeFacts KeyFacts Bip32Facts.
From Verif.Props Require Import Shelley Tx Builder Bip32 Signatures Wallet.
Open Scope Z_scope.
#[local] Opaque zmul.

Definition good_keys (ks : list bytes) : Prop := forall k, In k ks -> key96 k /\ le_value (kL k) < 2 ^ 255.
Definition vkeys (t : Tx) : list bytes := map VKey (Witness t).
Definition public_keys (ks : list bytes) : list bytes := map (fun k => public_of (le_value (kL k))) ks.

(** Build adds one witness for each key it was given, in their order, and no other. *)
Theorem C115_keys : forall (H : Hashes) (MO : MapOrder) w b w' t', hashes_ok -> @reachable (tx_crypto H) MO w -> (b < nbuilders w)%nat ->
  good_keys (builder_keys w b) -> @build (tx_crypto H) MO w b = (w', Ok t') -> vkeys (load w' t') = public_keys (builder_keys w b).
Proof.
  intros H MO w b w' t' HO R Hb G E. destruct (C69_signed H MO w b w' t' HO R Hb G E) as (s & _ & F). unfold vkeys, public_keys. clear - F.
  induction F as [| k x ks xs (P & _) _ IH]; [reflexivity |]. cbn [map]. rewrite P, IH. reflexivity.
Qed.
Print Assumptions C115_keys.
Lemma nodup_map {A B} (f : A -> B) l : (forall x y, In x l -> In y l -> f x = f y -> x = y) -> NoDup l -> NoDup (map f l).
Proof.
  intros J D. induction D as [| x l N D IH]; [constructor |]. cbn [map]. constructor.
  - intros I. apply in_map_iff in I. destruct I as (y & E & I). apply N. rewrite (J x y); [exact I | left; reflexivity | right; exact I | symmetry; exact E].
  - apply IH. intros y z Y Z. apply J; right; assumption.
Qed.
Lemma nodup_public ks : NoDup (public_keys ks) <-> NoDup (map (fun k => le_value (kL k) mod ell) ks).
Proof.
  unfold public_keys. induction ks as [| k ks IH]; [split; constructor |]. cbn [map]. rewrite !NoDup_cons_iff, IH.
  assert (Q : In (public_of (le_value (kL k))) (map (fun k => public_of (le_value (kL k))) ks) <-> In (le_value (kL k) mod ell) (map (fun k => le_value (kL k) mod ell) ks)); [| tauto].
  rewrite !in_map_iff. split; intros (x & E & I); exists x; (split; [| exact I]); apply public_inj; exact E.
Qed.
(** So the three demands hold of a built transaction exactly when they hold of the keys: for all owners, it is covered when each owner's
    key was given, it has no needless witness when only owners' keys were, and it has no witness twice when no two keys have
    the same scalar. The inputs carry no addresses and nothing checks any of this. *)
Theorem C115_exact : forall (H : Hashes) (MO : MapOrder) w b w' t' owners, hashes_ok -> @reachable (tx_crypto H) MO w -> (b < nbuilders w)%nat ->
  good_keys (builder_keys w b) -> @build (tx_crypto H) MO w b = (w', Ok t') ->
  (covers blake2b_224 owners (vkeys (load w' t')) <-> forall h, In h owners -> exists k, In k (builder_keys w b) /\ blake2b_224 (public_of (le_value (kL k))) = h) /\
  (needed blake2b_224 owners (vkeys (load w' t')) <-> forall k, In k (builder_keys w b) -> In (blake2b_224 (public_of (le_value (kL k)))) owners) /\
  (once (vkeys (load w' t')) <-> NoDup (map (fun k => le_value (kL k) mod ell) (builder_keys w b))).
Proof.
  intros H MO w b w' t' owners HO R Hb G E. rewrite (C115_keys H MO w b w' t' HO R Hb G E). split; [| split].
  - unfold covers, public_keys. split; intros A h I; destruct (A h I) as (x & X & Y).
    + apply in_map_iff in X. destruct X as (k & Q & X). exists k. split; [exact X | rewrite Q; exact Y].
    + exists (public_of (le_value (kL x))). split; [| exact Y]. apply in_map_iff. exists x. auto.
  - unfold needed, public_keys. split; intros A.
    + intros k I. apply A. apply in_map_iff. exists k. auto.
    + intros v I. apply in_map_iff in I. destruct I as (k & <- & I). apply A. exact I.
  - apply nodup_public.
Qed.
Print Assumptions C115_exact.
(** With the key of the wallet's address, a transaction that spends from that address only has the witnesses it needs. Missing: the check
    that the keys are those of the owners. *)
Theorem C115_wallet_partial : forall (H : Hashes) (MO : MapOrder) net root addr prv w b w' t' owners, hashes_ok -> root_key root -> generateBaseAddress net root = Ok (addr, prv) ->
  @reachable (tx_crypto H) MO w -> (b < nbuilders w)%nat -> builder_keys w b = [prv] -> @build (tx_crypto H) MO w b = (w', Ok t') ->
  owners <> [] -> (forall h, In h owners -> h = Payload (ba_pay addr)) -> exactly_needed blake2b_224 owners (vkeys (load w' t')).
Proof.
  intros H MO net root addr prv w b w' t' owners HO R G RW Hb KS E N A. destruct (C73_base_address H net root HO R) as (G' & K & _ & U & _). rewrite G' in G. apply Ok_inj in G. set (p := path_key hmac_sha512 root payment_path) in *. clearbody p.
  pose proof (f_equal snd G) as EP. pose proof (f_equal (fun q => Payload (ba_pay (fst q))) G) as EA. cbn [fst snd ba_pay Payload] in EP, EA. subst p.
  assert (GK : good_keys (builder_keys w b)) by (rewrite KS; intros k [<- | []]; split; assumption).
  destruct (C115_exact H MO w b w' t' owners HO RW Hb GK E) as (C1 & C2 & C3). rewrite KS in C1, C2, C3. split; [| split].
  - apply C1. intros h I. exists prv. split; [left; reflexivity |]. rewrite (A h I). exact EA.
  - apply C2. intros k [<- | []]. destruct owners as [| h owners]; [contradiction |]. left. rewrite (A h (or_introl eq_refl)). symmetry. exact EA.
  - apply C3. constructor; [intros [] | constructor].
Qed.
Print Assumptions C115_wallet_partial.
(** False, for every builder: without keys a transaction is built all the same, with no witness, whoever owns its inputs. *)
Theorem C115_missing_refuted : forall (H : Hashes) (MO : MapOrder) w b owners, hashes_ok -> runtime_order -> @reachable (tx_crypto H) MO w -> (b < nbuilders w)%nat ->
  tx_ok (builder_tx w b) -> builder_keys w b = [] -> owners <> [] ->
  exists w' t', @build (tx_crypto H) MO w b = (w', Ok t') /\ Inputs (Body (load w' t')) = Inputs (Body (builder_tx w b)) /\ ~ covers blake2b_224 owners (vkeys (load w' t')).
Proof.
  intros H MO w b owners HO RO R Hb T KS N. destruct (C69_total H MO w b HO RO T) as (w' & t' & E); [rewrite KS; intros k [] |]. exists w', t'. split; [exact E |].
  split; [destruct (C24_build (tx_crypto H) MO w b w' t' R Hb E) as (_ & _ & _ & Q & _); congruence |].
  intros A. destruct owners as [| h owners]; [contradiction |]. pose proof (proj1 (proj1 (C115_exact H MO w b w' t' (h :: owners) HO R Hb ltac:(rewrite KS; intros k []) E)) A) as A'.
  destruct (A' h (or_introl eq_refl)) as (k & I & _). rewrite KS in I. exact I.
Qed.
Print Assumptions C115_missing_refuted.
(** False, for every builder: a key given twice signs twice. *)
Theorem C115_twice_refuted : forall (H : Hashes) (MO : MapOrder) w b k, hashes_ok -> runtime_order -> @reachable (tx_crypto H) MO w -> (b < nbuilders w)%nat ->
  tx_ok (builder_tx w b) -> good_keys (builder_keys w b) -> key96 k -> le_value (kL k) < 2 ^ 255 ->
  let w1 := @run (tx_crypto H) MO w [OSign b k; OSign b k] in
  exists w' t', @build (tx_crypto H) MO w1 b = (w', Ok t') /\ vkeys (load w' t') = public_keys (builder_keys w b) ++ [public_of (le_value (kL k)); public_of (le_value (kL k))] /\ ~ once (vkeys (load w' t')).
Proof.
  intros H MO w b k HO RO R Hb T G K U w1.
  assert (S1 : forall w, @reachable (tx_crypto H) MO w -> (b < nbuilders w)%nat -> @reachable (tx_crypto H) MO (sign_with w b k) /\ (b < nbuilders (sign_with w b k))%nat /\ builder_tx (sign_with w b k) b = builder_tx w b /\ builder_keys (sign_with w b k) b = builder_keys w b ++ [k]).
  { intros v Rv Hv. split; [exact (@reachable_step (tx_crypto H) MO v (OSign b k) Rv Hv) |]. split; [pose proof (@nbuilders_step (tx_crypto H) MO v (OSign b k)) as Q; cbn [step] in Q; rewrite Q; exact Hv |]. split; [| exact (keys_sign v b k (@reachable_inv (tx_crypto H) MO v Rv) Hv)].
    unfold builder_tx, sign_with. destruct (_ <? _)%nat; unfold bld, load, obj; cbn; rewrite nth_upd_same by exact Hv; reflexivity. }
  destruct (S1 w R Hb) as (R1 & Hb1 & T1 & K1). destruct (S1 _ R1 Hb1) as (R2 & Hb2 & T2 & K2). change (sign_with (sign_with w b k) b k) with w1 in *. clearbody w1.
  rewrite T1 in T2. rewrite K1, <- app_assoc in K2. cbn [app] in K2. assert (G2 : good_keys (builder_keys w1 b)). { rewrite K2. intros j J. apply in_app_or in J. destruct J as [J | [<- | [<- | []]]]; auto. }
  destruct (C69_total H MO w1 b HO RO) as (w' & t' & E); [rewrite T2; exact T | intros j J; apply G2; exact J |]. exists w', t'. split; [exact E |].
  rewrite (C115_keys H MO w1 b w' t' HO R2 Hb2 G2 E), K2. unfold public_keys. rewrite map_app. split; [reflexivity |]. unfold once. intros N. apply NoDup_remove_2 in N. apply N. apply in_or_app. right. left. reflexivity.
Qed.
Print Assumptions C115_twice_refuted.
(** Two keys, two owners: the three demands hold of the keys of C69's history; and a history without keys. *)
Definition C115_bare : World := @run (tx_crypto toy_hashes) id_order empty_world [OMakeKeys [] 0; ONewBuilder ex_fees {| s_arr := 0; s_off := 0; s_len := 0 |}; OAddInputs 0 [ex_input 5000000]].
Example C115_example : good_keys (builder_keys C69_world 0) /\ NoDup (map (fun k => le_value (kL k) mod ell) (builder_keys C69_world 0)) /\
  @reachable (tx_crypto toy_hashes) id_order C115_bare /\ (0 < nbuilders C115_bare)%nat /\ tx_ok (builder_tx C115_bare 0) /\ builder_keys C115_bare 0 = [] /\ length (Inputs (Body (builder_tx C115_bare 0))) = 1%nat.
Proof.
  destruct C69_example as (_ & _ & _ & _ & EK & G). split; [rewrite EK; exact G |]. split; [rewrite EK; cbn [map C69_keys]; constructor; [intros [E | []]; vm_compute in E; discriminate | constructor; [intros [] | constructor]] |].
  split; [eexists; split; [| reflexivity]; cbn [valid_run]; repeat (split; [cbn; try exact Logic.I; lia |]); exact Logic.I |]. split; [cbn; lia |]. split; [| split; reflexivity].
  split; [| split; [split; [constructor | cbn; lia] | exact Logic.I]]. unfold body_ok.
  set (B := Body _). assert (EB : B = {| Inputs := [ex_input 5000000]; Outputs := []; Fee := 0; TTL := 0; AuxHash := [] |}) by reflexivity. clearbody B. subst B. cbn [Inputs Outputs Fee TTL AuxHash].
  split; [|split; [constructor | split; [vm_compute; reflexivity | split; [vm_compute; reflexivity | split; [lia | split; [lia | split; [intros x [] | vm_compute; reflexivity]]]]]]].
  constructor; [|constructor]. split; [intros x I; apply repeat_spec in I; subst x; lia |]. split; [vm_compute; reflexivity | cbn; lia].
Qed.
