(** C93-C95: when Bytes() succeeds, and what it writes as auxiliary data. *)
From Verif.Model Require Import Base Bech32 Hex Cbor Network Address Tx.
From Verif.Spec Require Import CborSpec TxSpec MdSpec Utf8Spec MetadataSpec AddressSpec.
From Verif.Proofs Require Import Util CborFacts AddressFacts AddressParse TxFacts.
From Verif.Props Require Import Shelley Tx.
From Coq Require Import Permutation.

(** ** C93 *)
Lemma perm_null m m' : md_perm m m' -> md_ok m' -> (md_item m' = null_item <-> m = MdNull).
Proof.
  intros P K. split.
  - intros E. inversion P; subst; try discriminate E. destruct m'; try discriminate E; try contradiction; [destruct b; discriminate E | reflexivity |]. cbn [md_item] in E. unfold float_item in E. cbv zeta in E. destruct (_ <? _) in E; [discriminate E |]. destruct (_ =? _) in E; discriminate E.
  - intros ->. inversion P; subst. reflexivity.
Qed.

(** Full statement: the body has an auxiliary data hash exactly when auxiliary data are written. Exactly when that is so: the metadata
    are not a nil inside the interface, and there is no hash left over when there are no metadata. *)
Theorem C93_exact : forall (C : TxCrypto) (MO : MapOrder) n t, runtime_order -> hash_ok -> tx_ok t ->
  exists ins outs fee ttl aux ws v meta,
    snd (tx_bytes n t) = Ok (cbor (tx_item (body_item ins outs fee ttl aux) ws v meta)) /\ item_ok (tx_item (body_item ins outs fee ttl aux) ws v meta) /\
    ((aux <> [] <-> meta <> null_item) <-> (Metadata t = None -> AuxHash (Body t) = []) /\ Metadata t <> Some MdNull).
Proof.
  intros C MO n t RO HO K. destruct (tx_bytes_spec n t RO HO K) as [E I]. destruct K as (_ & _ & KM). rewrite E. unfold the_tx, the_body in *. do 8 eexists. split; [reflexivity |]. split; [exact I |].
  cbn [with_body Body]. unfold aux_body. destruct (Metadata t) as [m |]; cbn [ordered option_map the_meta set_aux AuxHash].
  - assert (A : blake2b256 (cbor (md_item (map_order n m))) <> []) by (intros Q; pose proof (proj2 (HO (cbor (md_item (map_order n m))))) as L; rewrite Q in L; discriminate L).
    pose proof (perm_null m (map_order (S n) m) (RO _ _) (proj1 (md_perm_ok m KM _ (RO _ _)))) as N. split.
    + intros H. split; [discriminate |]. intros Q. injection Q as ->. apply (proj1 H A). apply N. reflexivity.
    + intros [_ H]. split; [| intros _; exact A]. intros _ Q. apply H. f_equal. apply N. exact Q.
  - split.
    + intros H. split; [| discriminate]. intros _. destruct (AuxHash (Body t)) as [| x r]; [reflexivity |]. exfalso. apply (proj1 H); [discriminate | reflexivity].
    + intros [H _]. rewrite (H eq_refl). split; intros Q; exfalso; apply Q; reflexivity.
Qed.
Print Assumptions C93_exact.
(** A nil map (or slice, or pointer) assigned to Metadata: its hash is in the body, and no metadata next to it. *)
Theorem C93_nil_refuted : forall (C : TxCrypto) (MO : MapOrder) n t, runtime_order -> hash_ok -> tx_ok t -> Metadata t = Some MdNull ->
  snd (tx_bytes n t) = Ok (cbor (tx_item (body_item (map in_pair (Inputs (Body t))) (map out_item (Outputs (Body t))) (Fee (Body t)) (TTL (Body t)) (blake2b256 [0xf6]))
                                        (map wit_pair (Witness t)) (Valid t) null_item)).
Proof.
  intros C MO n t RO HO K E. destruct (tx_bytes_spec n t RO HO K) as [-> _]. cbn [snd]. unfold the_tx, the_body, aux_body. rewrite E. cbn [ordered option_map the_meta].
  assert (N : forall k, map_order k MdNull = MdNull) by (intros k; pose proof (RO k MdNull) as P; inversion P; reflexivity). rewrite !N. reflexivity.
Qed.
Print Assumptions C93_nil_refuted.
Example C93_example : tx_ok (with_metadata ex_tx (Some MdNull)) /\ Metadata (with_metadata ex_tx (Some MdNull)) = Some MdNull.
Proof. split; [| reflexivity]. destruct ex_tx_ok as (A & B & _). split; [exact A | split; [exact B | exact I]]. Qed.

(** ** C94 *)
(** No value that CBOR cannot represent, at any depth. *)
Fixpoint encodable (m : md) : Prop :=
  match m with
  | MdArray l => fold_right (fun v P => encodable v /\ P) True l
  | MdMap l | MdStruct l => fold_right (fun '(k, v) P => encodable k /\ encodable v /\ P) True l
  | MdTag _ v => encodable v
  | MdBad => False
  | _ => True
  end.
Definition outcome {A} (P : Prop) (r : result A) : Prop := (P /\ exists x, r = Ok x) \/ (~ P /\ r = Err ECborEncode).
Lemma outcome_true {A} (x : A) : outcome True (Ok x). Proof. left. split; [exact I | exists x; reflexivity]. Qed.
Lemma outcome_iff {A} P Q (r : result A) : (P <-> Q) -> outcome P r -> outcome Q r. Proof. unfold outcome. tauto. Qed.
Lemma outcome_bind {A B} P Q (r : result A) (f : A -> result B) : outcome P r -> (forall x, outcome Q (f x)) -> outcome (P /\ Q) (bind r f).
Proof. intros [[HP (x & ->)] | [HP ->]] H; cbn [bind]; [| right; tauto]. destruct (H x) as [[HQ E] | [HQ E]]; [left | right]; tauto. Qed.
Lemma enc_md_outcome m : outcome (encodable m) (enc_md m).
Proof.
  induction m as [n | n | b | b | b | | l IH | l IH | l IH | t v IH | d n |] using md_ind'; cbn [encodable enc_md]; try apply outcome_true; [| | | | right; split; [intros [] | reflexivity]].
  - refine (outcome_iff _ _ _ _ (outcome_bind (fold_right (fun v P => encodable v /\ P) True l) True _ _ _ (fun _ => outcome_true _))); [tauto |].
    induction IH as [| x r Hx _ IHr]; [apply outcome_true |]. cbn [fold_right].
    refine (outcome_iff _ _ _ _ (outcome_bind _ _ _ _ Hx (fun _ => outcome_bind _ True _ _ IHr (fun _ => outcome_true _)))). tauto.
  - refine (outcome_iff _ _ _ _ (outcome_bind (fold_right (fun '(k, v) P => encodable k /\ encodable v /\ P) True l) True _ _ _ (fun _ => outcome_true _))); [tauto |].
    induction IH as [| [k v] r [Hk Hv] _ IHr]; [apply outcome_true |]. cbn [fold_right fst snd] in *.
    refine (outcome_iff _ _ _ _ (outcome_bind _ _ _ _ Hk (fun _ => outcome_bind _ _ _ _ Hv (fun _ => outcome_bind _ True _ _ IHr (fun _ => outcome_true _))))). tauto.
  - refine (outcome_iff _ _ _ _ (outcome_bind (fold_right (fun '(k, v) P => encodable k /\ encodable v /\ P) True l) True _ _ _ (fun _ => outcome_true _))); [tauto |].
    induction IH as [| [k v] r [Hk Hv] _ IHr]; [apply outcome_true |]. cbn [fold_right fst snd] in *.
    refine (outcome_iff _ _ _ _ (outcome_bind _ _ _ _ Hk (fun _ => outcome_bind _ _ _ _ Hv (fun _ => outcome_bind _ True _ _ IHr (fun _ => outcome_true _))))). tauto.
  - refine (outcome_iff _ _ _ _ (outcome_bind _ True _ _ IH (fun _ => outcome_true _))). tauto.
Qed.
Lemma encodable_perm m : forall m', md_perm m m' -> (encodable m <-> encodable m').
Proof.
  induction m as [n | n | b | b | b | | l IH | l IH | l IH | t v IH | d n |] using md_ind'; intros m' P; inversion P; subst; try reflexivity.
  - cbn [encodable]. match goal with F : Forall2 _ l ?x |- _ => rename x into l'; rename F into F0 end. clear P. induction F0 as [| x y r r' Hxy _ IHr]; [reflexivity |]. inversion IH as [| ? ? Hx IH']; subst. cbn [fold_right]. rewrite (Hx _ Hxy), (IHr IH'). reflexivity.
  - cbn [encodable]. match goal with F : Forall2 _ l ?x, Q : Permutation ?x ?y |- _ => rename x into l1; rename y into l2; rename F into F0; rename Q into F1 end. clear P.
    assert (A : fold_right (fun '(k, v) P => encodable k /\ encodable v /\ P) True l <-> fold_right (fun '(k, v) P => encodable k /\ encodable v /\ P) True l1).
    { clear F1. induction F0 as [| [k v] [k' v'] r r' [Hk Hv] _ IHr]; [reflexivity |]. inversion IH as [| ? ? [Ik Iv] IH']; subst. cbn [fold_right fst snd] in *. rewrite (Ik _ Hk), (Iv _ Hv), (IHr IH'). reflexivity. }
    rewrite A. clear - F1. induction F1 as [| [k v] r r' _ IH | [k v] [k' v'] r | r r' r'' _ IH1 _ IH2]; cbn [fold_right]; tauto.
  - cbn [encodable]. match goal with F : Forall2 _ l ?x |- _ => rename x into l1; rename F into F0 end. clear P.
    induction F0 as [| [k v] [k' v'] r r' [Hk Hv] _ IHr]; [reflexivity |]. inversion IH as [| ? ? [Ik Iv] IH']; subst. cbn [fold_right fst snd] in *. rewrite (Ik _ Hk), (Iv _ Hv), (IHr IH'). reflexivity.
  - cbn [encodable]. auto.
Qed.

Definition no_reward (t : Tx) : Prop := forall o, In o (Outputs (Body t)) -> ~ is_reward (OutAddress o).
Definition metadata_encodable (t : Tx) : Prop := match Metadata t with None => True | Some m => encodable m end.
Lemma enc_outputs_outcome l : outcome (forall o, In o l -> ~ is_reward (OutAddress o)) (enc_outputs l).
Proof.
  induction l as [| o r IH]; [refine (outcome_iff _ _ _ _ (outcome_true _)); split; [intros _ ? [] | auto] |]. cbn [enc_outputs].
  assert (X : outcome (~ is_reward (OutAddress o)) (enc_output o)).
  { unfold enc_output. destruct (OutAddress o); cbn [addr_marshal bind is_reward]; try (left; split; [tauto | eexists; reflexivity]). right. split; [tauto | reflexivity]. }
  refine (outcome_iff _ _ _ _ (outcome_bind _ _ _ _ X (fun _ => outcome_bind _ True _ _ IH (fun _ => outcome_true _)))). cbn [In]. split.
  - intros (A & B & _) y [<- | Hy]; auto.
  - intros A. split; [apply A; auto | split; [intros y Hy; apply A; auto | exact I]].
Qed.
Lemma body_outcome b : outcome (forall o, In o (Outputs b) -> ~ is_reward (OutAddress o)) (body_marshal b).
Proof. unfold body_marshal. refine (outcome_iff _ _ _ _ (outcome_bind _ True _ _ (enc_outputs_outcome _) (fun _ => outcome_true _))). tauto. Qed.
Lemma after_outcome {C : TxCrypto} {MO : MapOrder} {A} n t (k : Tx -> result A) : runtime_order ->
  (forall b, Outputs b = Outputs (Body t) -> outcome (no_reward t /\ metadata_encodable t) (k (with_body t b)) \/ outcome (no_reward t) (k (with_body t b))) ->
  outcome (no_reward t /\ metadata_encodable t) (snd (after_aux n t k)).
Proof.
  intros RO H. unfold after_aux, calc_aux, metadata_encodable in *. destruct (Metadata t) as [m |] eqn:E.
  - destruct (enc_md_outcome (map_order n m)) as [[K (b & ->)] | [K ->]]; cbn [bind snd].
    + apply (encodable_perm m) in K; [| apply RO]. destruct (H (set_aux (Body t) (blake2b256 b)) eq_refl) as [X | X]; [exact X |]. refine (outcome_iff _ _ _ _ X). tauto.
    + right. split; [| reflexivity]. intros [_ Q]. apply K. apply (encodable_perm m); [apply RO | exact Q].
  - cbn [snd]. destruct (H (Body t) eq_refl) as [X | X]; [exact X |]. refine (outcome_iff _ _ _ _ X). tauto.
Qed.
Lemma marshal_outcome {C : TxCrypto} {MO : MapOrder} n t b : runtime_order -> Outputs b = Outputs (Body t) ->
  outcome (no_reward t /\ metadata_encodable t) (tx_marshal n (with_body t b)).
Proof.
  intros RO E. unfold tx_marshal, no_reward, metadata_encodable. cbn [Body with_body Witness Valid Metadata]. rewrite <- E.
  assert (X : outcome (match Metadata t with None => True | Some m => encodable m end) (match Metadata t with None => Ok enc_nil | Some m => enc_md (map_order n m) end)).
  { destruct (Metadata t) as [m |]; [| apply outcome_true]. refine (outcome_iff _ _ _ _ (enc_md_outcome (map_order n m))). symmetry. apply encodable_perm. apply RO. }
  refine (outcome_iff _ _ _ _ (outcome_bind _ _ _ _ (body_outcome b) (fun _ => outcome_bind _ True _ _ X (fun _ => outcome_true _)))). tauto.
Qed.

(** Bytes(), Hex(), Hash() and Fee() give a result exactly for transactions without reward outputs and with metadata CBOR can
    represent; otherwise they return an error. They never panic. *)
Theorem C94_exact : forall (C : TxCrypto) (MO : MapOrder) n lfee t, runtime_order ->
  let good := (forall o, In o (Outputs (Body t)) -> ~ is_reward (OutAddress o)) /\ match Metadata t with None => True | Some m => encodable m end in
  (good -> (exists s, snd (tx_bytes n t) = Ok s) /\ (exists s, snd (tx_hex n t) = Ok s) /\ (exists h, snd (tx_hash n t) = Ok h) /\ exists f, snd (tx_fee n lfee t) = Ok f) /\
  (~ good -> snd (tx_bytes n t) = Err ECborEncode /\ snd (tx_hex n t) = Err ECborEncode /\ snd (tx_hash n t) = Err ECborEncode /\ snd (tx_fee n lfee t) = Err ECborEncode).
Proof.
  intros C MO n lfee t RO good.
  assert (B : outcome good (snd (tx_bytes n t))) by (apply (after_outcome n t _ RO); intros b E; left; apply marshal_outcome; assumption).
  assert (X : outcome good (snd (tx_hex n t))).
  { unfold tx_hex. destruct (tx_bytes n t) as [b r]. cbn [snd] in *. refine (outcome_iff _ _ _ _ (outcome_bind _ True _ _ B (fun _ => outcome_true _))). tauto. }
  assert (H : outcome good (snd (tx_hash n t))).
  { apply (after_outcome n t _ RO). intros b E. right. cbn [Body with_body]. unfold no_reward. rewrite <- E. refine (outcome_iff _ _ _ _ (outcome_bind _ True _ _ (body_outcome b) (fun _ => outcome_true _))). tauto. }
  assert (F : outcome good (snd (tx_fee n lfee t))).
  { apply (after_outcome n t _ RO). intros b E. left. refine (outcome_iff _ _ _ _ (outcome_bind _ True _ _ (marshal_outcome (S n) t b RO E) (fun _ => outcome_true _))). tauto. }
  clearbody good. unfold outcome in *. split; intros G; [tauto |]. repeat split; tauto.
Qed.
Print Assumptions C94_exact.
Example C94_example : let t := with_metadata ex_tx (Some (MdMap [(MdUint 1, MdBad)])) in
  ~ encodable (MdMap [(MdUint 1, MdBad)]) /\ encodable ex_meta /\ (forall o, In o (Outputs (Body t)) -> ~ is_reward (OutAddress o)).
Proof. split; [cbn; tauto |]. split; [vm_compute; tauto |]. intros o H. cbn in H. repeat (destruct H as [<- | H]; [cbn; tauto |]). contradiction. Qed.

(** ** C95 *)
Definition entry (p : md * md) : item * item := let '(k, v) := p in (md_item k, md_item v).
Lemma forall2_iff (P : item * item -> Prop) l l' : Forall2 (fun p q => P (entry p) <-> P (entry q)) l l' -> (Forall P (map entry l) <-> Forall P (map entry l')).
Proof. induction 1 as [| x y r r' H _ IH]; cbn [map]; [reflexivity |]. rewrite !Forall_cons_iff, H, IH. reflexivity. Qed.
Lemma metadatum_perm m : forall m', md_perm m m' -> (metadatum (md_item m) <-> metadatum (md_item m')).
Proof.
  assert (A : forall l, metadatum (Arr l) <-> Forall metadatum l) by (intros l; split; [intros H; inversion H; assumption | constructor; assumption]).
  assert (M : forall l, metadatum (Map l) <-> Forall (fun p => metadatum (fst p) /\ metadatum (snd p)) l) by (intros l; split; [intros H; inversion H; assumption | constructor; assumption]).
  induction m as [n | n | b | b | b | | l IH | l IH | l IH | t v IH | d n |] using md_ind'; intros m' P; inversion P; subst; try reflexivity; cbn [md_item]; try match goal with F : Forall2 _ l ?x |- _ => rename x into l1; rename F into F0 end.
  - rewrite !A. clear P. induction F0 as [| x y r r' Hxy _ IHr]; [reflexivity |]. inversion IH as [| ? ? Hx IH']; subst. cbn [map]. rewrite !Forall_cons_iff, (Hx _ Hxy), (IHr IH'). reflexivity.
  - match goal with Q : Permutation l1 ?y |- _ => rename y into l2; rename Q into F1 end. rewrite !M. change (Forall (fun p => metadatum (fst p) /\ metadatum (snd p)) (map entry l) <-> Forall (fun p => metadatum (fst p) /\ metadatum (snd p)) (map entry l2)).
    transitivity (Forall (fun p => metadatum (fst p) /\ metadatum (snd p)) (map entry l1)); [| split; apply Permutation_Forall; [| symmetry]; apply Permutation_map; exact F1].
    apply forall2_iff. clear F1 P. induction F0 as [| [k v] [k' v'] r r' [Hk Hv] _ IHr]; [constructor |]. inversion IH as [| ? ? [Ik Iv] IH']; subst. cbn [fst snd] in *. constructor; [| auto]. cbn [entry fst snd]. rewrite (Ik _ Hk), (Iv _ Hv). reflexivity.
  - rewrite !M. change (Forall (fun p => metadatum (fst p) /\ metadatum (snd p)) (map entry l) <-> Forall (fun p => metadatum (fst p) /\ metadatum (snd p)) (map entry l1)).
    apply forall2_iff. clear P. induction F0 as [| [k v] [k' v'] r r' [Hk Hv] _ IHr]; [constructor |]. inversion IH as [| ? ? [Ik Iv] IH']; subst. cbn [fst snd] in *. constructor; [| auto]. cbn [entry fst snd]. rewrite (Ik _ Hk), (Iv _ Hv). reflexivity.
  - split; intros H; inversion H.
Qed.
Lemma label_perm k k' : md_perm k k' -> ((exists n, md_item k = Uint n /\ 0 <= n < 2 ^ 64) <-> (exists n, md_item k' = Uint n /\ 0 <= n < 2 ^ 64)).
Proof. intros P. inversion P; subst; [reflexivity | | | |]; cbn [md_item]; split; intros (n & E & _); discriminate E. Qed.
Lemma metadata_map_perm m m' : md_perm m m' -> (metadata_map (md_item m) <-> metadata_map (md_item m')).
Proof.
  assert (M : forall l, metadata_map (Map l) <-> Forall (fun p => (exists n, fst p = Uint n /\ 0 <= n < 2 ^ 64) /\ metadatum (snd p)) l).
  { intros l. split; [intros (x & E & H); injection E as <-; exact H | intros H; exists l; auto]. }
  intros P. inversion P; subst; [reflexivity | cbn [md_item]; split; intros (x & E & _); discriminate E | | | cbn [md_item]; split; intros (x & E & _); discriminate E]; cbn [md_item]; rewrite !M.
  2:{ match goal with F : Forall2 _ l ?x |- _ => rename x into l1; rename F into F0 end. set (Q := fun p : item * item => (exists n, fst p = Uint n /\ 0 <= n < 2 ^ 64) /\ metadatum (snd p)). change (Forall Q (map entry l) <-> Forall Q (map entry l1)).
    apply forall2_iff. clear P. induction F0 as [| [k v] [k' v'] r r' [Hk Hv] _ IHr]; [constructor |]. constructor; [| exact IHr]. cbn [fst snd] in *. unfold Q. cbn [entry fst snd]. rewrite (label_perm _ _ Hk), (metadatum_perm _ _ Hv). reflexivity. }
  match goal with F : Forall2 _ l ?x, Q : Permutation ?x ?y |- _ => rename x into l1; rename y into l2; rename F into F0; rename Q into F1 end.
  set (Q := fun p : item * item => (exists n, fst p = Uint n /\ 0 <= n < 2 ^ 64) /\ metadatum (snd p)). change (Forall Q (map entry l) <-> Forall Q (map entry l2)).
  transitivity (Forall Q (map entry l1)); [| split; apply Permutation_Forall; [| symmetry]; apply Permutation_map; exact F1].
  apply forall2_iff. clear F1 P. induction F0 as [| [k v] [k' v'] r r' [Hk Hv] _ IHr]; [constructor |]. constructor; [| exact IHr]. cbn [fst snd] in *. unfold Q. cbn [entry fst snd]. rewrite (label_perm _ _ Hk), (metadatum_perm _ _ Hv). reflexivity.
Qed.

(** Full statement: the auxiliary data written by Bytes() are metadata of the ledger. Bytes() checks nothing: they are exactly when the
    value assigned to Metadata is one. *)
Theorem C95_exact : forall (C : TxCrypto) (MO : MapOrder) n t m, runtime_order -> hash_ok -> tx_ok t -> Metadata t = Some m ->
  exists body ws v meta, snd (tx_bytes n t) = Ok (cbor (tx_item body ws v meta)) /\ item_ok (tx_item body ws v meta) /\ (metadata_map meta <-> metadata_map (md_item m)).
Proof.
  intros C MO n t m RO HO K E. destruct (tx_bytes_spec n t RO HO K) as [X I]. rewrite X. unfold the_tx in *. do 4 eexists. split; [reflexivity |]. split; [exact I |].
  rewrite E. cbn [ordered option_map the_meta]. symmetry. apply metadata_map_perm. apply RO.
Qed.
Print Assumptions C95_exact.
(** So a text of more than 64 bytes, or one that is not UTF-8, is written without an error. *)
Theorem C95_refuted : forall (C : TxCrypto) (MO : MapOrder) n t s, runtime_order -> hash_ok -> tx_ok t -> (forall x, In x s -> 0 <= x < 256) -> Z.of_nat (length s) < 2 ^ 64 ->
  (64 < length s)%nat \/ ~ utf8_text s -> Metadata t = Some (MdMap [(MdUint 674, MdText s)]) ->
  exists body ws v, snd (tx_bytes n t) = Ok (cbor (tx_item body ws v (Map [(Uint 674, Tstr s)]))) /\ ~ metadata_map (Map [(Uint 674, Tstr s)]).
Proof.
  intros C MO n t s RO HO K B L S E. destruct (tx_bytes_spec n t RO HO K) as [X I]. rewrite X. unfold the_tx in *. rewrite E. cbn [ordered option_map the_meta].
  assert (N : md_item (map_order (Datatypes.S n) (MdMap [(MdUint 674, MdText s)])) = Map [(Uint 674, Tstr s)]).
  { pose proof (RO (Datatypes.S n) (MdMap [(MdUint 674, MdText s)])) as P. inversion P as [| | l l' l'' F Q | |]; subst; [reflexivity |]. inversion F as [| ? [k v] ? r [Hk Hv] F']; subst. inversion F'; subst. cbn [fst snd] in *. inversion Hk; subst. inversion Hv; subst.
    apply Permutation_length_1_inv in Q. subst. reflexivity. }
  rewrite N. do 3 eexists. split; [reflexivity |]. intros (l & El & F). injection El as <-. inversion F as [| ? ? [_ M] _]; subst. cbn [snd] in M. inversion M; subst. destruct S as [S | S]; [lia | contradiction].
Qed.
Print Assumptions C95_refuted.
Example C95_example : metadata_map (md_item (MdMap [(MdUint 674, MdText (str "ada"))])) /\ let s := repeat 65 65 in
  tx_ok (with_metadata ex_tx (Some (MdMap [(MdUint 674, MdText s)]))) /\ (64 < length s)%nat.
Proof.
  split.
  - eexists. split; [reflexivity |]. constructor; [| constructor]. cbn. split; [exists 674; split; [reflexivity | lia] |]. constructor; [cbn; lia |]. apply (ut_char 97 [97]); [left; lia | constructor; lia |]. apply (ut_char 100 [100]); [left; lia | constructor; lia |]. apply (ut_char 97 [97] []); [left; lia | constructor; lia | constructor].
  - split; [| cbn; lia]. destruct ex_tx_ok as (A & B & _). split; [exact A | split; [exact B |]]. cbn [Metadata with_metadata meta_ok md_ok fold_right length]. repeat split; try lia; try (rewrite repeat_length; lia). all: match goal with H : In _ _ |- _ => apply repeat_spec in H; lia end.
Qed.
(** A struct with the fields "pi" (a float64), "big" (an integer beyond 64 bits: a tagged byte string) and "none" (NaN as float32), under
    label 674: what is written, and that it is not metadata of the ledger. *)
Definition C95_struct : md := MdMap [(MdUint 674, MdStruct [(MdText (str "pi"), MdFloat true 0x400921fb54442d18); (MdText (str "big"), MdTag 2 (MdBytes (1 :: repeat 0 8))); (MdText (str "none"), MdFloat false 0x7fc00001)])].
Example C95_struct_example : tx_ok (with_metadata ex_tx (Some C95_struct)) /\ ~ metadata_map (md_item C95_struct) /\ encodable C95_struct /\ enc_md C95_struct = Ok (cbor (md_item C95_struct)) /\
  cbor (md_item C95_struct) = [0xa1; 0x19; 0x02; 0xa2; 0xa3; 0x62; 0x70; 0x69; 0xfb; 0x40; 0x09; 0x21; 0xfb; 0x54; 0x44; 0x2d; 0x18; 0x63; 0x62; 0x69; 0x67; 0xc2; 0x49; 1; 0; 0; 0; 0; 0; 0; 0; 0; 0x64; 0x6e; 0x6f; 0x6e; 0x65; 0xf9; 0x7e; 0].
Proof.
  split; [| split; [| split; [| split]]]; [| | vm_compute; tauto | vm_compute; reflexivity | vm_compute; reflexivity].
  - destruct ex_tx_ok as (A & B & _). split; [exact A | split; [exact B |]]. cbn. repeat split; try lia; match goal with H : _ |- _ => repeat (destruct H as [<- | H]; [lia |]); contradiction end.
  - intros (l & E & F). injection E as <-. inversion F as [| ? ? [_ M] _]; subst. cbn [snd] in M. inversion M as [| | | | | ? G]; subst. inversion G as [| ? ? [_ X] _]; subst. inversion X.
Qed.
