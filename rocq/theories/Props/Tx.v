(** C21-C23, C25, C32, C33, C36: transactions. *)
From Coq Require Import Permutation.
From Verif.Model Require Import Base Hex Cbor Network Address Tx.
From Verif.Spec Require Import CborSpec HexSpec ByronSpec TxSpec MdSpec.
From Verif.Proofs Require Import OrderFacts Util CborFacts HexFacts AddressFacts ByronFacts TxFacts HeapProps.

Lemma Ok_inj {A} (x y : A) : Ok x = Ok y -> x = y.
Proof. congruence. Qed.

(** ** What a transaction item says *)
Lemma vkey_items_inj l l' : map vkey_item l = map vkey_item l' -> l = l'.
Proof.
  revert l'. induction l as [| [a b] l IH]; intros [| [c d] l'] H; try discriminate; auto. cbn [map] in H.
  injection H as -> -> H. f_equal. auto.
Qed.
Lemma witness_item_inj ws ws' : witness_item ws = witness_item ws' -> ws = ws'.
Proof.
  destruct ws as [| w ws], ws' as [| w' ws']; intros H; try discriminate; auto. unfold witness_item in H. apply vkey_items_inj. congruence.
Qed.
Lemma body_item_inj i o f x a i' o' f' x' a' : body_item i o f x a = body_item i' o' f' x' a' -> i = i' /\ o = o' /\ f = f' /\ x = x' /\ a = a'.
Proof.
  unfold body_item. intros H. injection H as H1 -> -> H2. apply input_item_inj in H1. split; [auto |]. split; [auto |]. split; [auto |].
  destruct (Z.eqb_spec x 0), (Z.eqb_spec x' 0), a, a'; cbn [app] in H2; try discriminate; try (injection H2 as H2); subst; auto.
  all: split; congruence.
Qed.
Lemma tx_item_inj b w v m b' w' v' m' : tx_item b w v m = tx_item b' w' v' m' -> b = b' /\ w = w' /\ v = v' /\ m = m'.
Proof.
  unfold tx_item. intros H. assert (H1 : b = b') by congruence. assert (H2 : witness_item w = witness_item w') by congruence.
  assert (H3 : bool_item v = bool_item v') by congruence. assert (H4 : m = m') by congruence. apply witness_item_inj in H2.
  destruct v, v'; try discriminate H3; auto.
Qed.

Definition shelley_out (o : TxOutput) : Prop := match OutAddress o with AByron _ => False | _ => True end.
Lemma shelley_items l : Forall shelley_out l -> map out_item l = map output_item (map out_pair l).
Proof.
  induction 1 as [| o l H _ IH]; [reflexivity |]. cbn [map]. rewrite IH. f_equal. unfold out_item, output_item, out_pair, shelley_out in *.
  destruct (OutAddress o); try contradiction; reflexivity.
Qed.
Lemma Forall_aux (b : TxBody) h P : Forall P (Outputs b) -> Forall P (Outputs (set_aux b h)).
Proof. auto. Qed.
Lemma outputs_aux {C : TxCrypto} {MO : MapOrder} n t : Outputs (aux_body n t) = Outputs (Body t) /\ Inputs (aux_body n t) = Inputs (Body t) /\ Fee (aux_body n t) = Fee (Body t) /\ TTL (aux_body n t) = TTL (Body t).
Proof. unfold aux_body. destruct (Metadata t); auto. Qed.

(** C21. The bytes, for transactions without Byron outputs: the CDDL structure, filled with the
    transaction's own fields; the auxiliary data hash and the auxiliary data are those of the metadata with
    its maps listed in some order. *)
Theorem C21_partial : forall (C : TxCrypto) (MO : MapOrder) n t, runtime_order -> hash_ok -> tx_ok t -> Forall shelley_out (Outputs (Body t)) ->
  exists aux meta it s, snd (tx_bytes n t) = Ok s /\ s = cbor it /\ item_ok it /\
    it = tx_item (body_item (map (fun i => (TxHash i, Index i)) (Inputs (Body t)))
                            (map output_item (map (fun o => (addr_bytes (OutAddress o), OutAmount o)) (Outputs (Body t))))
                            (Fee (Body t)) (TTL (Body t)) aux)
                 (map (fun w => (VKey w, Signature w)) (Witness t)) (Valid t) meta /\
    match Metadata t with
    | None => aux = AuxHash (Body t) /\ meta = null_item
    | Some m => exists m1 m2, md_perm m m1 /\ md_perm m m2 /\ aux = blake2b256 (cbor (md_item m1)) /\ meta = md_item m2
    end /\
    parse_item s = Some (cval_of it).
Proof.
  intros C MO n t RO HO K S. destruct (tx_bytes_spec n t RO HO K) as [E I].
  exists (AuxHash (aux_body n t)), (the_meta (ordered (Datatypes.S n) (Metadata t))), (the_tx (with_body t (aux_body n t)) (ordered (Datatypes.S n) (Metadata t))). eexists.
  split; [rewrite E; reflexivity |]. split; [reflexivity |]. split; [exact I |].
  destruct (outputs_aux n t) as (E1 & E2 & E3 & E4). split; [| split].
  - unfold the_tx. cbn [Body Witness Valid with_body]. unfold the_body. rewrite E1, E2, E3, E4, shelley_items by auto. reflexivity.
  - unfold aux_body. destruct (Metadata t) as [m |]; cbn [ordered option_map the_meta]; [| auto].
    exists (map_order n m), (map_order (Datatypes.S n) m). auto using RO.
  - rewrite <- (app_nil_r (cbor _)). apply parse_item_cbor. exact I.
Qed.
Print Assumptions C21_partial.
(** A new transaction is the empty one, marked valid; its bytes depend on nothing. *)
Theorem C21_new : tx_ok NewTx /\ forall (C : TxCrypto) (MO : MapOrder) n,
  snd (tx_bytes n NewTx) = Ok (cbor (tx_item (body_item [] [] 0 0 []) [] true null_item)) /\
  snd (tx_hex n NewTx) = Ok (str "84a3008001800200a0f5f6").
Proof. split; [| intros C MO n; split; reflexivity]. unfold tx_ok, body_ok. repeat split; cbn; auto; try lia; try (intros ? []); try contradiction. Qed.
Print Assumptions C21_new.
(** Every field can be read back: no other field values have these bytes. *)
Theorem C21_fields_unique : forall i o f x a w v m i' o' f' x' a' w' v' m',
  let t := tx_item (body_item i (map output_item o) f x a) w v m in
  let t' := tx_item (body_item i' (map output_item o') f' x' a') w' v' m' in
  item_ok t -> item_ok t' -> cbor t = cbor t' -> i = i' /\ o = o' /\ f = f' /\ x = x' /\ a = a' /\ w = w' /\ v = v' /\ m = m'.
Proof.
  intros i o f x a w v m i' o' f' x' a' w' v' m' t t' K K' E. apply cbor_inj in E; auto. subst t t'.
  apply tx_item_inj in E as (E & -> & -> & ->). apply body_item_inj in E as (-> & E & -> & -> & ->). apply input_item_inj in E. subst o'. auto 10.
Qed.
Print Assumptions C21_fields_unique.
(** False for every transaction with a Byron output: its address is not written as a byte string, so the
    bytes are not of the CDDL form whatever the fields. *)
Theorem C21_byron_refuted : forall (C : TxCrypto) (MO : MapOrder) n t, runtime_order -> hash_ok -> tx_ok t ->
  (exists o b, In o (Outputs (Body t)) /\ OutAddress o = AByron b) ->
  exists s, snd (tx_bytes n t) = Ok s /\
    forall i o f x a w v m, item_ok (tx_item (body_item i (map output_item o) f x a) w v m) -> cbor (tx_item (body_item i (map output_item o) f x a) w v m) <> s.
Proof.
  intros C MO n t RO HO K (o & b & Ho & Eb). destruct (tx_bytes_spec n t RO HO K) as [E I]. eexists. split; [rewrite E; reflexivity |].
  intros i os f x a w v m I' Ec. apply cbor_inj in Ec; auto. unfold the_tx in Ec. apply tx_item_inj in Ec as (Ec & _). unfold the_body in Ec.
  apply body_item_inj in Ec as (_ & Ec & _). cbn [Body with_body] in Ec. destruct (outputs_aux n t) as (E1 & _). rewrite E1 in Ec.
  assert (Hi : In (out_item o) (map output_item os)) by (rewrite Ec; apply in_map; auto). apply in_map_iff in Hi as ([p q] & Hp & _).
  unfold output_item, out_item in Hp. cbn [fst snd] in Hp. assert (Hq : Bstr p = addr_item (OutAddress o)) by congruence. rewrite Eb in Hq.
  unfold addr_item, byron_outer in Hq. discriminate Hq.
Qed.
Print Assumptions C21_byron_refuted.
(** An output paying a reward address makes Bytes fail. *)
Theorem C21_reward_error : forall (C : TxCrypto) (MO : MapOrder) n t r, (exists o, In o (Outputs (Body t)) /\ OutAddress o = AReward r) ->
  forall s, snd (tx_bytes n t) <> Ok s.
Proof.
  intros C MO n t r (o & Ho & Er) s. unfold tx_bytes, after_aux.
  assert (G : forall l, In o l -> forall s, enc_outputs l <> Ok s).
  { induction l as [| p l IH]; intros Hl s'; [destruct Hl |]. cbn [enc_outputs]. destruct Hl as [-> | Hl].
    - unfold enc_output. rewrite Er. discriminate.
    - intros H. apply bind_ok in H as (x & _ & H). apply bind_ok in H as (y & H & _). apply (IH Hl _ H). }
  destruct (calc_aux n t) as [b | |] eqn:Ea; try discriminate. cbn [snd]. unfold tx_marshal, body_marshal. cbn [Body with_body]. intros H.
  apply bind_ok in H as (x & H & _). apply bind_ok in H as (y & H & _). revert H. apply G.
  unfold calc_aux in Ea. destruct (Metadata t) as [m |]; [| congruence]. apply bind_ok in Ea as (z & _ & Ea). injection Ea as <-. exact Ho.
Qed.
Print Assumptions C21_reward_error.

(** Examples: any hash function with 32-byte results will do. *)
Definition ex_crypto : TxCrypto := {|
  blake2b256 := fun s => map (fun i => (i + fold_left (fun a b => (a * 31 + b + 7) mod 65521) s 1) mod 256) (zrange 32);
  key_public := fun k => Ok (firstn 32 k); key_sign := fun k h => Ok (firstn 32 k ++ h) |}.
Definition id_order : MapOrder := {| map_order := fun _ m => m |}.
Lemma ex_hash_ok : @hash_ok ex_crypto.
Proof.
  intros x. split; [| reflexivity]. intros b H. apply in_map_iff in H as (i & <- & _). apply Z.mod_pos_bound. lia.
Qed.
Lemma id_runtime : @runtime_order id_order.
Proof. intros n m. constructor. Qed.
Definition ex_out (net : NetworkInfo) (v : Z) : TxOutput := {| OutAddress := AEnterprise {| ea_net := net; ea_pay := NewKeyStakeCredential (repeat 17 28) |}; OutAmount := v |}.
Definition ex_body : TxBody := {| Inputs := [{| TxHash := repeat 200 32; Index := 300; InAmount := 5000000 |}; {| TxHash := repeat 1 32; Index := 0; InAmount := 77 |}];
  Outputs := [ex_out TestNet 4000000; ex_out MainNet 5]; Fee := 170000; TTL := 99999; AuxHash := [] |}.
Definition ex_meta : md := MdMap [(MdUint 1, MdText (str "hi")); (MdUint 674, MdArray [MdBytes [1; 2]; MdNint 4; MdBool true])].
Definition ex_tx : Tx := {| Body := ex_body; Witness := [{| VKey := repeat 3 32; Signature := repeat 4 64 |}]; Valid := true; Metadata := Some ex_meta |}.
Lemma bytes_repeat x n : 0 <= x < 256 -> all_bytes (repeat x n).
Proof. intros H b Hb. apply repeat_spec in Hb. subst. auto. Qed.
Lemma ex_tx_ok : tx_ok ex_tx.
Proof.
  assert (F : forall l, forallb (fun x => (0 <=? x) && (x <? 256)) l = true -> all_bytes l).
  { intros l H b Hb. rewrite forallb_forall in H. apply H in Hb. lia. }
  split; [| split].
  - split; [| split]; [| | do 2 (split; [reflexivity |]); split; [cbn; lia |]; split; [cbn; lia |]; split; [intros b [] | reflexivity]].
    + repeat (apply Forall_cons || apply Forall_nil); (split; [apply bytes_repeat; lia | split; cbn; lia]).
    + repeat (apply Forall_cons || apply Forall_nil); (split; [split; [apply F; reflexivity | reflexivity] | cbn; lia]).
  - split; [| reflexivity]. repeat (apply Forall_cons || apply Forall_nil).
    split; [apply bytes_repeat; lia |]. split; [reflexivity |]. split; [apply bytes_repeat; lia | reflexivity].
  - cbn. repeat split; try lia; intros x Hx; repeat destruct Hx as [<- | Hx]; try lia; destruct Hx.
Qed.
Example C21_example : tx_ok ex_tx /\ Forall shelley_out (Outputs (Body ex_tx)) /\
  exists s, snd (@tx_bytes ex_crypto id_order 0 ex_tx) = Ok s /\ length s = 316%nat.
Proof. split; [apply ex_tx_ok |]. split; [repeat constructor |]. eexists. vm_compute. split; reflexivity. Qed.

(** ** C22 *)
Theorem C22_bytes : forall a b s, body_ok a -> body_ok b -> body_marshal a = Ok s -> body_marshal b = Ok s ->
  map (fun i => (TxHash i, Index i)) (Inputs a) = map (fun i => (TxHash i, Index i)) (Inputs b) /\
  map (fun o => (addr_bytes (OutAddress o), OutAmount o)) (Outputs a) = map (fun o => (addr_bytes (OutAddress o), OutAmount o)) (Outputs b) /\
  Fee a = Fee b /\ TTL a = TTL b /\ AuxHash a = AuxHash b.
Proof. exact body_marshal_inj. Qed.
Print Assumptions C22_bytes.
(** The same for Hash(), unless the two body encodings, or the two encodings of the metadata, have one BLAKE2b-256 hash. *)
Theorem C22_hash : forall (C : TxCrypto) (MO : MapOrder) n n' t t' h, runtime_order -> hash_ok -> tx_ok t -> tx_ok t' ->
  snd (tx_hash n t) = Ok h -> snd (tx_hash n' t') = Ok h ->
  collision (cbor (the_body (fst (tx_hash n t)))) (cbor (the_body (fst (tx_hash n' t')))) \/
  map (fun i => (TxHash i, Index i)) (Inputs (Body t)) = map (fun i => (TxHash i, Index i)) (Inputs (Body t')) /\
  map (fun o => (addr_bytes (OutAddress o), OutAmount o)) (Outputs (Body t)) = map (fun o => (addr_bytes (OutAddress o), OutAmount o)) (Outputs (Body t')) /\
  Fee (Body t) = Fee (Body t') /\ TTL (Body t) = TTL (Body t') /\
  match Metadata t, Metadata t' with
  | Some m, Some m' => exists m1 m1', md_perm m m1 /\ md_perm m' m1' /\ (md_item m1 = md_item m1' \/ collision (cbor (md_item m1)) (cbor (md_item m1')))
  | None, None => AuxHash (Body t) = AuxHash (Body t')
  | Some m, None => exists m1, md_perm m m1 /\ AuxHash (Body t') = blake2b256 (cbor (md_item m1))
  | None, Some m => exists m1, md_perm m m1 /\ AuxHash (Body t) = blake2b256 (cbor (md_item m1))
  end.
Proof.
  intros C MO n n' t t' h RO HO K K' H H'. rewrite (tx_hash_spec n t RO HO K) in *. rewrite (tx_hash_spec n' t' RO HO K') in *. cbn [fst snd] in *.
  destruct (list_eq_dec Z.eq_dec (cbor (the_body (aux_body n t))) (cbor (the_body (aux_body n' t')))) as [E | E].
  2: { left. split; [exact E | congruence]. }
  pose proof (aux_body_ok n t HO (proj1 K)) as A. pose proof (aux_body_ok n' t' HO (proj1 K')) as A'.
  apply cbor_inj in E; try (apply the_body_ok; auto). apply the_body_inj in E as (E1 & E2 & E3 & E4 & E5); auto.
  destruct (outputs_aux n t) as (O1 & O2 & O3 & O4). destruct (outputs_aux n' t') as (P1 & P2 & P3 & P4).
  rewrite O1, P1 in E2. rewrite O2, P2 in E1. rewrite O3, P3 in E3. rewrite O4, P4 in E4.
  unfold aux_body in E5. destruct (Metadata t) as [m |] eqn:Em, (Metadata t') as [m' |] eqn:Em'; cbn [AuxHash set_aux] in E5.
  - destruct (list_eq_dec Z.eq_dec (cbor (md_item (map_order n m))) (cbor (md_item (map_order n' m')))) as [E | E].
    + right. do 4 (split; [auto |]). exists (map_order n m), (map_order n' m'). split; [apply RO |]. split; [apply RO |]. left.
      apply cbor_inj in E; auto; apply md_item_ok.
      * apply (md_perm_ok m); [| apply RO]. destruct K as (_ & _ & K). rewrite Em in K. exact K.
      * apply (md_perm_ok m'); [| apply RO]. destruct K' as (_ & _ & K'). rewrite Em' in K'. exact K'.
    + right. do 4 (split; [auto |]). exists (map_order n m), (map_order n' m'). split; [apply RO |]. split; [apply RO |]. right. split; [exact E | exact E5].
  - right. do 4 (split; [auto |]). exists (map_order n m). split; [apply RO | auto].
  - right. do 4 (split; [auto |]). exists (map_order n' m'). split; [apply RO | auto].
  - right. auto 10.
Qed.
Print Assumptions C22_hash.
Example C22_example : body_ok ex_body /\ body_marshal ex_body <> body_marshal (set_ttl ex_body 99998).
Proof. split; [apply ex_tx_ok | vm_compute; discriminate]. Qed.

(** ** C23 *)
Theorem C23_no_witness : forall (C : TxCrypto) (MO : MapOrder) n b ws v ws' v' m,
  tx_hash n {| Body := b; Witness := ws; Valid := v; Metadata := m |} = tx_hash n {| Body := b; Witness := ws'; Valid := v'; Metadata := m |}.
Proof. intros. apply tx_hash_meta; reflexivity. Qed.
Print Assumptions C23_no_witness.
(** Hash() is the hash of the body inside Bytes(), whichever is called first and however often, when no
    metadata map has two entries. Missing: larger maps, for which it is false. *)
Theorem C23_hash_of_bytes_partial : forall (C : TxCrypto) (MO : MapOrder) n n' t, runtime_order -> hash_ok -> tx_ok t -> meta_free (Metadata t) ->
  exists body rest, snd (tx_bytes n t) = Ok ([132] ++ cbor body ++ rest) /\ item_ok body /\ snd (tx_hash n' t) = Ok (blake2b256 (cbor body)) /\
    snd (tx_hash n' (with_body t (fst (tx_bytes n t)))) = Ok (blake2b256 (cbor body)).
Proof.
  intros C MO n n' t RO HO K F. destruct (tx_bytes_spec n t RO HO K) as [E I]. rewrite E. cbn [fst snd].
  assert (Ab : body_ok (aux_body n t)) by (apply aux_body_ok; [exact HO | apply K]).
  assert (K2 : tx_ok (with_body t (aux_body n t))) by (destruct K as (? & ? & ?); split; [exact Ab | split; assumption]).
  exists (the_body (aux_body n t)), (cbor (witness_item (map wit_pair (Witness t))) ++ cbor (bool_item (Valid t)) ++ cbor (the_meta (ordered (S n) (Metadata t))) ++ []).
  split; [reflexivity |]. split; [apply the_body_ok; auto |]. split.
  - rewrite (tx_hash_spec n' t RO HO K). cbn [snd]. rewrite (aux_body_free n' n t RO F). reflexivity.
  - rewrite (tx_hash_spec n' _ RO HO K2). cbn [snd]. rewrite (aux_body_idem n' n t RO F). reflexivity.
Qed.
Print Assumptions C23_hash_of_bytes_partial.
Definition ex_free : md := MdMap [(MdUint 674, MdArray [MdBytes [1; 2]; MdMap [(MdUint 0, MdNull)]])].
Lemma ex_free_ok : tx_ok (with_metadata ex_tx (Some ex_free)).
Proof.
  destruct ex_tx_ok as (A & B & _). split; [exact A |]. split; [exact B |]. cbn. repeat split; try lia; intros x Hx; repeat destruct Hx as [<- | Hx]; try lia; destruct Hx.
Qed.
Example C23_example : let t := with_metadata ex_tx (Some ex_free) in tx_ok t /\ meta_free (Metadata t) /\
  snd (@tx_hash ex_crypto id_order 0 t) <> snd (@tx_hash ex_crypto id_order 0 ex_tx).
Proof. split; [apply ex_free_ok |]. split; [cbn; auto | vm_compute; discriminate]. Qed.

(** A run of Go in which the second and fourth marshalling list the top-level map backwards. *)
Definition flip (m : md) : md := match m with MdMap l => MdMap (rev l) | m => m end.
Definition alternating : MapOrder := {| map_order := fun n m => if Nat.even n then m else flip m |}.
Lemma alternating_runtime : @runtime_order alternating.
Proof.
  intros n m. cbn. destruct (Nat.even n); [constructor |]. destruct m; cbn [flip]; try constructor.
  apply mp_map with l; [| apply Permutation_rev]. induction l; constructor; auto. split; constructor.
Qed.
Definition ex_two : md := MdMap [(MdUint 1, MdUint 2); (MdUint 3, MdUint 4)].

(** C32 is false when a metadata map has two entries: whenever the two marshallings inside Bytes() meet the entries in orders that
    differ in the encoding, the hash in the body is not the hash of the metadata bytes next to it, unless the two encodings
    have one BLAKE2b-256 hash. *)
Theorem C32_refuted : forall (C : TxCrypto) (MO : MapOrder) n t m, runtime_order -> hash_ok -> tx_ok t -> Metadata t = Some m ->
  md_item (map_order n m) <> md_item (map_order (S n) m) ->
  collision (cbor (md_item (map_order n m))) (cbor (md_item (map_order (S n) m))) \/
  exists ws v meta, snd (tx_bytes n t) = Ok (cbor (tx_item (the_body (fst (tx_bytes n t))) ws v meta)) /\
    item_ok (tx_item (the_body (fst (tx_bytes n t))) ws v meta) /\ AuxHash (fst (tx_bytes n t)) <> blake2b256 (cbor meta).
Proof.
  intros C MO n t m RO HO K E N. destruct (tx_bytes_spec n t RO HO K) as [S I]. pose proof (proj2 (proj2 K)) as KM. rewrite E in KM. cbn [meta_ok] in KM.
  assert (D : cbor (md_item (map_order n m)) <> cbor (md_item (map_order (Datatypes.S n) m))).
  { intros Q. apply cbor_inj in Q; [exact (N Q) | |]; apply md_item_ok, (md_perm_ok m KM), RO. }
  destruct (list_eq_dec Z.eq_dec (blake2b256 (cbor (md_item (map_order n m)))) (blake2b256 (cbor (md_item (map_order (Datatypes.S n) m))))) as [Q | Q].
  { left. split; assumption. }
  right. rewrite S. cbn [fst snd]. unfold the_tx in *. do 3 eexists. split; [reflexivity |]. split; [exact I |]. unfold aux_body. rewrite E. exact Q.
Qed.
Print Assumptions C32_refuted.
(** The runtime may choose such orders exactly when some map has two entries. *)
Theorem C32_orders : forall m, distinct_keys m ->
  (order_free m <-> forall (MO : MapOrder), runtime_order -> forall n n', md_item (map_order n m) = md_item (map_order n' m)).
Proof.
  intros m D. split.
  - intros F MO RO n n'. rewrite !(order_free_perm m F _ (RO _ m)). reflexivity.
  - intros H. destruct (order_free_dec m) as [F | F]; [exact F |]. destruct (order_shows m D F) as (m' & P & N). destruct N.
    specialize (H (other_order m m') (other_order_runtime m m' P) 1%nat 0%nat). rewrite other_order_odd, other_order_even in H by reflexivity. exact H.
Qed.
Print Assumptions C32_orders.
(** And Hash() then differs from the hash of the body in Bytes(). *)
Theorem C23_refuted : forall (C : TxCrypto) (MO : MapOrder) n n' t m, runtime_order -> hash_ok -> tx_ok t -> Metadata t = Some m ->
  md_item (map_order n m) <> md_item (map_order n' m) ->
  collision (cbor (md_item (map_order n m))) (cbor (md_item (map_order n' m))) \/
  collision (cbor (the_body (fst (tx_bytes n t)))) (cbor (the_body (fst (tx_hash n' t)))) \/
  exists body rest h, snd (tx_bytes n t) = Ok ([132] ++ cbor body ++ rest) /\ item_ok body /\ snd (tx_hash n' t) = Ok h /\ h <> blake2b256 (cbor body).
Proof.
  intros C MO n n' t m RO HO K E N. pose proof (proj2 (proj2 K)) as KM. rewrite E in KM. cbn [meta_ok] in KM.
  assert (D0 : cbor (md_item (map_order n m)) <> cbor (md_item (map_order n' m))).
  { intros Q. apply cbor_inj in Q; [exact (N Q) | |]; apply md_item_ok, (md_perm_ok m KM), RO. }
  destruct (list_eq_dec Z.eq_dec (blake2b256 (cbor (md_item (map_order n m)))) (blake2b256 (cbor (md_item (map_order n' m))))) as [Q | NQ].
  { left. split; assumption. }
  right. rewrite (tx_hash_spec n' t RO HO K). destruct (tx_bytes_spec n t RO HO K) as [S _]. rewrite S. cbn [fst snd].
  set (b0 := aux_body n t). set (b1 := aux_body n' t).
  assert (A0 : body_ok b0) by (apply aux_body_ok; [exact HO | apply K]). assert (A1 : body_ok b1) by (apply aux_body_ok; [exact HO | apply K]).
  assert (D : cbor (the_body b0) <> cbor (the_body b1)).
  { intros Q. apply cbor_inj in Q; try (apply the_body_ok; auto). apply the_body_inj in Q as (_ & _ & _ & _ & Q); auto.
    unfold b0, b1, aux_body in Q. rewrite E in Q. apply NQ. exact Q. }
  destruct (list_eq_dec Z.eq_dec (blake2b256 (cbor (the_body b0))) (blake2b256 (cbor (the_body b1)))) as [Q | N'].
  { left. split; assumption. }
  right. exists (the_body b0), (cbor (witness_item (map wit_pair (Witness t))) ++ cbor (bool_item (Valid t)) ++ cbor (the_meta (ordered (Datatypes.S n) (Metadata t))) ++ []), (blake2b256 (cbor (the_body b1))).
  split; [reflexivity |]. split; [apply the_body_ok; auto |]. split; [reflexivity |]. intros Q. apply N'. symmetry. exact Q.
Qed.
Print Assumptions C23_refuted.
Definition ex_tx2 : Tx := with_metadata ex_tx (Some ex_two).
Lemma ex_tx2_ok : tx_ok ex_tx2.
Proof. destruct ex_tx_ok as (A & B & _). split; [exact A |]. split; [exact B |]. cbn. lia. Qed.
Example C32_refuted_example : tx_ok ex_tx2 /\ Metadata ex_tx2 = Some ex_two /\ distinct_keys ex_two /\ ~ order_free ex_two /\ @runtime_order alternating /\
  md_item (@map_order alternating 0 ex_two) <> md_item (@map_order alternating 1 ex_two) /\
  @blake2b256 ex_crypto (cbor (md_item ex_two)) <> @blake2b256 ex_crypto (cbor (md_item (flip ex_two))).
Proof.
  split; [apply ex_tx2_ok |]. split; [reflexivity |]. split; [cbn; repeat split; repeat constructor; cbn; intuition discriminate |].
  split; [auto |]. split; [apply alternating_runtime |]. split; vm_compute; discriminate.
Qed.
(** It holds when no map has two entries. *)
Theorem C32_partial : forall (C : TxCrypto) (MO : MapOrder) n t m, runtime_order -> hash_ok -> tx_ok t -> Metadata t = Some m -> order_free m ->
  exists body ws v, snd (tx_bytes n t) = Ok (cbor (tx_item (the_body body) ws v (md_item m))) /\ item_ok (tx_item (the_body body) ws v (md_item m)) /\
    AuxHash body = blake2b256 (cbor (md_item m)) /\ fst (tx_bytes n t) = body /\
    forall n', snd (tx_hash n' t) = Ok (blake2b256 (cbor (the_body body))).
Proof.
  intros C MO n t m RO HO K E F. destruct (tx_bytes_spec n t RO HO K) as [S I]. rewrite S. unfold the_tx in *. cbn [fst snd Body Witness Valid with_body] in *.
  rewrite E in *. cbn [ordered option_map the_meta] in *. rewrite (order_free_perm m F _ (RO (Datatypes.S n) m)) in *.
  do 3 eexists. split; [reflexivity |]. split; [exact I |]. split; [unfold aux_body; rewrite E; rewrite (order_free_perm m F _ (RO n m)); reflexivity |].
  split; [reflexivity |]. intros n'. rewrite (tx_hash_spec n' t RO HO K). cbn [snd]. rewrite (aux_body_free n' n t RO); [reflexivity |]. rewrite E. exact F.
Qed.
Print Assumptions C32_partial.
Example C32_example : order_free ex_free /\ tx_ok (with_metadata ex_tx (Some ex_free)).
Proof. split; [cbn; auto | apply ex_free_ok]. Qed.

(** ** C33 is false: after any metadata was serialised once, clearing it leaves key 7 in the body. *)
Theorem C33_refuted : forall (C : TxCrypto) (MO : MapOrder) n n' t m, runtime_order -> hash_ok -> tx_ok t -> Metadata t = Some m ->
  let t1 := with_metadata (with_body t (fst (tx_bytes n t))) None in
  exists s aux, snd (tx_bytes n' t1) = Ok s /\ aux <> [] /\
    s = cbor (tx_item (body_item (map in_pair (Inputs (Body t))) (map out_item (Outputs (Body t))) (Fee (Body t)) (TTL (Body t)) aux) (map wit_pair (Witness t)) (Valid t) null_item).
Proof.
  intros C MO n n' t m RO HO K E t1. destruct (tx_bytes_spec n t RO HO K) as [S _]. subst t1. rewrite S. cbn [fst].
  assert (Ab : body_ok (aux_body n t)) by (apply aux_body_ok; [exact HO | apply K]).
  set (t1 := with_metadata (with_body t (aux_body n t)) None).
  assert (K1 : tx_ok t1) by (destruct K as (? & ? & ?); split; [exact Ab | split; [assumption | exact I]]).
  destruct (tx_bytes_spec n' t1 RO HO K1) as [S1 _]. exists (cbor (the_tx t1 None)), (AuxHash (aux_body n t)). rewrite S1. split; [reflexivity |]. split.
  - unfold aux_body. rewrite E. cbn [AuxHash set_aux]. intros Q. pose proof (proj2 (HO (cbor (md_item (map_order n m))))) as L. rewrite Q in L. discriminate L.
  - unfold the_tx, t1, the_body. cbn [Body with_body with_metadata Witness Valid the_meta]. destruct (outputs_aux n t) as (-> & -> & -> & ->). reflexivity.
Qed.
Print Assumptions C33_refuted.
Example C33_example : tx_ok ex_tx /\ Metadata ex_tx = Some ex_meta.
Proof. split; [apply ex_tx_ok | reflexivity]. Qed.
(** Without any metadata ever set the body keeps whatever hash it had, none to begin with. *)
Theorem C33_partial : forall (C : TxCrypto) (MO : MapOrder) n t, Metadata t = None -> fst (tx_bytes n t) = Body t /\ fst (tx_hash n t) = Body t /\ forall l, fst (tx_fee n l t) = Body t.
Proof. intros C MO n t E. unfold tx_bytes, tx_hash, tx_fee, after_aux, calc_aux. rewrite E. auto. Qed.
Print Assumptions C33_partial.

(** ** C25 *)
Theorem C25_formula : forall (C : TxCrypto) (MO : MapOrder) n l t s, snd (tx_bytes n t) = Ok s ->
  snd (tx_fee n l t) = Ok ((TxFeeFixed l + TxFeePerByte l * Z.of_nat (length s)) mod 2 ^ 64).
Proof. intros C MO n l t s H. rewrite tx_fee_bytes, H. reflexivity. Qed.
Print Assumptions C25_formula.
(** The same number whenever and in whatever map order Bytes() is called. *)
Theorem C25_any_order : forall (C : TxCrypto) (MO : MapOrder) n n' l t s, runtime_order -> hash_ok -> tx_ok t -> snd (tx_bytes n' t) = Ok s ->
  snd (tx_fee n l t) = Ok ((TxFeeFixed l + TxFeePerByte l * Z.of_nat (length s)) mod 2 ^ 64) /\
  snd (tx_fee n l (with_body t (fst (tx_bytes n' t)))) = Ok ((TxFeeFixed l + TxFeePerByte l * Z.of_nat (length s)) mod 2 ^ 64).
Proof.
  intros C MO n n' l t s RO HO K H.
  assert (G : forall n t' s', tx_ok t' -> Fee (Body t') = Fee (Body t) -> TTL (Body t') = TTL (Body t) -> Metadata t' = Metadata t -> Witness t' = Witness t ->
            Inputs (Body t') = Inputs (Body t) -> Outputs (Body t') = Outputs (Body t) ->
            (Metadata t = None -> AuxHash (Body t') = AuxHash (Body t)) -> snd (tx_bytes n t') = Ok s' -> zlen s' = zlen s).
  { clear n. intros n t' s' K' E1 E2 E3 E4 E5 E6 E7 H'. rewrite (proj1 (tx_bytes_spec n t' RO HO K')) in H'. rewrite (proj1 (tx_bytes_spec n' t RO HO K)) in H. cbn [snd] in *.
    apply Ok_inj in H, H'. subst s s'. rewrite !the_tx_size. cbn [Body Witness with_body].
    assert (A : body_ok (aux_body n' t)) by (apply aux_body_ok; [exact HO | apply K]). assert (A' : body_ok (aux_body n t')) by (apply aux_body_ok; [exact HO | apply K']).
    destruct A as (_ & _ & _ & _ & AF & AT & _), A' as (_ & _ & _ & _ & AF' & AT' & _).
    rewrite (body_size_spec (aux_body n t')) by lia. rewrite (body_size_spec (aux_body n' t)) by lia. unfold body_size.
    destruct (outputs_aux n t') as (-> & -> & -> & ->). destruct (outputs_aux n' t) as (-> & -> & -> & ->). rewrite E1, E2, E3, E4, E5, E6.
    rewrite (meta_size (Datatypes.S n) (Datatypes.S n') (Metadata t) RO) by apply K. assert (X : aux_size (AuxHash (aux_body n t')) = aux_size (AuxHash (aux_body n' t))).
    { unfold aux_body. rewrite E3. destruct (Metadata t) as [m |]; [| rewrite E7; auto]. cbn [AuxHash set_aux]. unfold aux_size, zlen.
      pose proof (proj2 (HO (cbor (md_item (map_order n m))))) as L. pose proof (proj2 (HO (cbor (md_item (map_order n' m))))) as L'.
      rewrite L, L'. destruct (blake2b256 (cbor (md_item (map_order n m)))); [discriminate L |]. destruct (blake2b256 (cbor (md_item (map_order n' m)))); [discriminate L' |]. reflexivity. }
    lia. }
  split.
  - destruct (tx_bytes_spec n t RO HO K) as [S _]. erewrite C25_formula; [| rewrite S; reflexivity]. do 3 f_equal. f_equal.
    apply (G n t); auto. rewrite S. reflexivity.
  - rewrite (proj1 (tx_bytes_spec n' t RO HO K)). cbn [fst]. set (t' := with_body t (aux_body n' t)).
    assert (K' : tx_ok t') by (destruct K as (? & ? & ?); split; [apply aux_body_ok; assumption | split; assumption]).
    destruct (tx_bytes_spec n t' RO HO K') as [S _]. erewrite C25_formula; [| rewrite S; reflexivity]. do 3 f_equal. f_equal.
    destruct (outputs_aux n' t) as (E1 & E2 & E3 & E4).
    apply (G n t'); auto; try (unfold t'; cbn [Body with_body Metadata Witness]; auto; fail).
    + unfold t'. cbn [Body with_body]. unfold aux_body. intros ->. reflexivity.
    + rewrite S. reflexivity.
Qed.
Print Assumptions C25_any_order.
(** Fee() leaves everything but the auxiliary data hash (which Bytes() would set just the same) alone;
    witnesses and the valid flag are not even in its reach. *)
Theorem C25_effect : forall (C : TxCrypto) (MO : MapOrder) n l t, let b := fst (tx_fee n l t) in
  Inputs b = Inputs (Body t) /\ Outputs b = Outputs (Body t) /\ Fee b = Fee (Body t) /\ TTL b = TTL (Body t) /\ b = fst (tx_bytes n t).
Proof.
  intros C MO n l t b. pose proof (tx_fee_core n l t) as E. fold b in E. unfold core in E. injection E as E1 E2 E3 E4.
  do 4 (split; [assumption |]). unfold b. rewrite tx_fee_bytes. reflexivity.
Qed.
Print Assumptions C25_effect.
Example C25_example : snd (@tx_fee ex_crypto id_order 0 {| TxFeePerByte := 44; TxFeeFixed := 155381 |} ex_tx) = Ok (155381 + 44 * 316).
Proof. vm_compute. reflexivity. Qed.

(** ** C36 *)
Theorem C36_valid : forall s b ix a, length b = 32%nat -> all_bytes b -> map hex_fold s = hex_of b ->
  NewTxInput s ix a = {| TxHash := b; Index := ix; InAmount := a |}.
Proof.
  intros s b ix a _ B H. unfold NewTxInput. assert (E : hex_decode s = Ok b) by (apply hex_decode_iff; split; [apply CborParse.all_bytes_ok |]; auto).
  unfold hex_decode in E. destruct (hex_decode_prefix s) as [l [e |]]; [discriminate |]. injection E as ->. reflexivity.
Qed.
Print Assumptions C36_valid.
(** Malformed text is not reported: every text gives what some well-formed text gives. *)
Lemma prefix_ok s : bytes_ok (fst (hex_decode_prefix s)).
Proof.
  induction s as [| a | a b s IH] using list_pair_ind; cbn [hex_decode_prefix fst]; try constructor.
  destruct (from_hex_char a) as [x |] eqn:Ea; [| constructor]. destruct (from_hex_char b) as [y |] eqn:Eb; [| constructor].
  destruct (hex_decode_prefix s) as [l e]. cbn [fst] in *. constructor; auto.
  apply from_hex_spec in Ea as [Ea _]. apply from_hex_spec in Eb as [Eb _]. rewrite nibbles by auto. unfold is_byte. lia.
Qed.
Theorem C36_malformed_refuted : forall s ix a, exists s' b, all_bytes b /\ s' = hex_of b /\ NewTxInput s ix a = NewTxInput s' ix a.
Proof.
  intros s ix a. exists (hex_of (fst (hex_decode_prefix s))), (fst (hex_decode_prefix s)).
  pose proof (prefix_ok s) as B. split; [apply CborParse.all_bytes_ok; auto |]. split; [reflexivity |]. unfold NewTxInput at 2.
  assert (E : hex_decode (hex_of (fst (hex_decode_prefix s))) = Ok (fst (hex_decode_prefix s))) by (apply hex_decode_iff; split; auto; apply hex_fold_of; auto).
  unfold hex_decode in E. destruct (hex_decode_prefix (hex_of _)) as [l [e |]]; [discriminate |]. injection E as ->. reflexivity.
Qed.
Print Assumptions C36_malformed_refuted.
(** Exactly: the hash is what the longest prefix of pairs of hexadecimal digits stands for, whatever its length;
    index and amount are kept. *)
Theorem C36_exact : forall s ix a h, NewTxInput s ix a = h <-> exists b, all_bytes b /\ hex_prefix s b /\ h = {| TxHash := b; Index := ix; InAmount := a |}.
Proof.
  intros s ix a h. split.
  - intros <-. exists (fst (hex_decode_prefix s)). split; [apply CborParse.all_bytes_ok, prefix_ok |]. split; [apply hex_prefix_decode |].
    unfold NewTxInput. destruct (hex_decode_prefix s). reflexivity.
  - intros (b & B & P & ->). apply CborParse.all_bytes_ok in B. apply hex_prefix_unique in P; auto. unfold NewTxInput. destruct (hex_decode_prefix s). cbn [fst] in P. subst b. reflexivity.
Qed.
Print Assumptions C36_exact.
Example C36_example : NewTxInput (str "0102xyz") 1 2 = NewTxInput (str "0102") 1 2 /\
  TxHash (NewTxInput (str "FFfe0000000000000000000000000000000000000000000000000000000000aB") 1 2) = [255; 254] ++ repeat 0 29 ++ [171].
Proof. split; reflexivity. Qed.
