(** C42, C55-C59, C68: hash constructors and the node backends. *)
From Verif.Model Require Import Base Hex Network Tx Crypto Node.
From Verif.Spec Require Import CborSpec HexSpec AddressSpec NodeSpec.
From Verif.Proofs Require Import FieldsFacts Util HexFacts Bech32Facts NodeFacts CborParse.
From Verif.Props Require Import Tx.

(** ** C42 *)
Theorem C42_constructors : forall f n, In (f, n) [(Ed25519KeyHashFromBytes, 28); (ScriptHashFromBytes, 28); (TransactionHashFromBytes, 32);
    (GenesisDelegateHashFromBytes, 28); (GenesisHashFromBytes, 28); (MetadataHashFromBytes, 32); (VRFKeyHashFromBytes, 32);
    (BlockHashFromBytes, 32); (VRFVKeyFromBytes, 32); (KESVKeyFromBytes, 32)] ->
  forall b, (zlen b = n -> f b = Ok b) /\ (zlen b <> n -> f b = Err EUnexpectedBytes).
Proof.
  assert (G : forall n b, (zlen b = Z.of_nat n -> fixed_from_bytes n b = Ok b) /\ (zlen b <> Z.of_nat n -> fixed_from_bytes n b = Err EUnexpectedBytes)).
  { intros n b. unfold fixed_from_bytes, zlen. destruct (Nat.eqb_spec (length b) n) as [<- | N]; cbn [negb]; split; intros H; try lia; auto.
    unfold slice. rewrite Nat.leb_refl. cbn [Nat.leb andb bind]. rewrite Nat.sub_0_r. cbn [skipn]. rewrite firstn_all. unfold copy_at. rewrite Nat.sub_0_r, Nat.min_id. cbn [firstn app Nat.add].
    rewrite firstn_all, skipn_all2 by (rewrite repeat_length; lia). rewrite app_nil_r. reflexivity. }
  intros f n H b. repeat (destruct H as [H | H]; [injection H as <- <-; first [apply (G 28%nat b) | apply (G 32%nat b)] |]). destruct H.
Qed.
Print Assumptions C42_constructors.
Example C42_example : Ed25519KeyHashFromBytes (repeat 5 28) = Ok (repeat 5 28) /\ Ed25519KeyHashFromBytes (repeat 5 32) = Err EUnexpectedBytes.
Proof. split; reflexivity. Qed.

(** ** C55 is false both ways round: the test network is queried with --mainnet, the main network (and any
    other non-zero id) with a test network magic. *)
Theorem C55_refuted : forall args, cli_args test_network args = args ++ [str "--mainnet"] /\ cli_args main_network args = args ++ [str "--testnet-magic 764824073"].
Proof. intros args. split; reflexivity. Qed.
Print Assumptions C55_refuted.
(** What is passed: exactly one more argument, --mainnet exactly when the id is 0, else the configured magic. *)
Theorem C55_partial : forall n args, 0 <= ProtocolMagic n < 2 ^ 32 ->
  exists suffix, cli_args n args = args ++ [suffix] /\ (suffix = str "--mainnet" <-> NetworkId n = 0) /\
    (NetworkId n <> 0 -> exists d, suffix = str "--testnet-magic " ++ d /\ decimal_of d (ProtocolMagic n)).
Proof.
  intros n args H. exists (cli_suffix n). split; [reflexivity |]. unfold cli_suffix. destruct (Z.eqb_spec (NetworkId n) 0) as [E | E].
  - split; [tauto | contradiction].
  - split; [split; [intros Q; discriminate Q | contradiction] |]. intros _. exists (decimal (ProtocolMagic n)). split; [reflexivity |]. apply decimal_spec. lia.
Qed.
Print Assumptions C55_partial.
Example C55_example : cli_args {| NetworkId := 7; ProtocolMagic := 42 |} [str "query"] = [str "query"; str "--testnet-magic 42"].
Proof. reflexivity. Qed.

(** ** C56 is false: no output at all is ever listed, and any command output with three or more printable
    characters makes UTXOs panic. *)
Theorem C56_panic_refuted : forall data, (3 <= inked data)%nat -> cli_utxos data = Panic.
Proof.
  intros data H. destruct (split_count data) as [L _]. unfold cli_utxos. destruct (Nat.ltb_spec (length data) 3) as [Q | Q].
  - assert (length (split_lines data) <> 0)%nat by (destruct (split_lines data) eqn:E; [apply (split_count data) in E; contradiction | discriminate]). lia.
  - unfold slice. destruct (Nat.leb_spec (length data - 1) (length (split_lines data))) as [Q' | Q']; [lia |]. rewrite andb_false_r. reflexivity.
Qed.
Print Assumptions C56_panic_refuted.
Theorem C56_empty_refuted : forall data l e, cli_utxos data = Ok (l, e) -> l = [].
Proof.
  intros data l e H. destruct (Nat.leb_spec 3 (inked data)) as [Q | Q]; [rewrite C56_panic_refuted in H by auto; discriminate |].
  unfold cli_utxos in H. destruct (_ <? 3)%nat; [congruence |].
  destruct (slice (split_lines data) 2 (length data - 1)) as [rows | |] eqn:S; try discriminate. cbn [bind] in H.
  assert (R : forall r, In r rows -> (length r <= 2)%nat).
  { intros r Hr. unfold slice in S. destruct (_ && _)%bool; try discriminate. injection S as <-.
    assert (In r (split_lines data)) by (rewrite <- (firstn_skipn 2); apply in_or_app; right; rewrite <- (firstn_skipn (length data - 1 - 2)); apply in_or_app; left; exact Hr).
    apply line_ink in H0. lia. }
  destruct rows as [| r rows]; [cbn in H; congruence |]. cbn [cli_rows] in H. specialize (R r (or_introl eq_refl)).
  pose proof (fields_count r []) as FC. cbn in FC. change (fields_from r []) with (fields r) in FC.
  destruct (index (fields r) 1) as [f1 | |] eqn:E1; try discriminate. cbn [bind] in H. destruct (parse_uint f1 16) as [ix | e1 |]; try discriminate; [| congruence].
  assert (E2 : index (fields r) 2 = Panic).
  { unfold index. destruct (nth_error (fields r) 2) eqn:E; [| reflexivity]. assert (nth_error (fields r) 2 <> None) as X by congruence. apply nth_error_Some in X. lia. }
  rewrite E2 in H. discriminate.
Qed.
Print Assumptions C56_empty_refuted.
(** The loop itself is right: given the rows of a well-formed table it returns one input per row, in order. *)
Theorem C56_rows_partial : forall tbl rows, Forall2 (fun '(h, ix, am) s => row h ix am s) tbl rows ->
  Forall (fun '(h, ix, am) => 0 <= ix < 2 ^ 16 /\ 0 <= am < 2 ^ 63) tbl ->
  cli_rows rows [] = Ok (map (fun '(h, ix, am) => NewTxInput h ix am) tbl, None).
Proof.
  intros tbl rows H K. change (map _ tbl) with ([] ++ map (fun '(h, ix, am) => NewTxInput h ix am) tbl). generalize (@nil TxInput) as acc.
  revert K. induction H as [| [[h ix] am] s tbl rows R _ IH]; intros K acc; cbn [cli_rows map]; [rewrite app_nil_r; reflexivity |].
  inversion K as [| ? ? K1 K']; subst. cbn beta iota in K1. destruct K1 as [K1 K2]. cbn beta iota in R. destruct (fields_row h ix am s R) as (i & a & more & -> & I & A).
  cbn [index nth_error bind]. rewrite (parse_uint_decimal i ix 16) by auto. rewrite (fields_word_end a) by (apply (decimal_word a am); auto). cbn [index nth_error bind].
  rewrite (atoi_decimal a am) by auto. unfold u16, u64. rewrite !Z.mod_small by lia. rewrite IH by auto. rewrite <- app_assoc. reflexivity.
Qed.
Print Assumptions C56_rows_partial.
Definition ex_table : bytes := str "                           TxHash                                 TxIx        Amount" ++ [10] ++
  str "--------------------------------------------------------------------------------------" ++ [10] ++
  str "0101010101010101010101010101010101010101010101010101010101010101     3        5000000 lovelace + TxOutDatumNone" ++ [10].
Example C56_example : cli_utxos ex_table = Panic /\ (3 <= inked ex_table)%nat /\
  cli_rows [str "0101010101010101010101010101010101010101010101010101010101010101     3        5000000 lovelace + TxOutDatumNone"] [] =
  Ok ([{| TxHash := repeat 1 32; Index := 3; InAmount := 5000000 |}], None).
Proof. split; [vm_compute; reflexivity |]. split; [vm_compute; lia | vm_compute; reflexivity]. Qed.

(** ** C57 *)
Definition lovelace (u : ApiUTXO) : list ApiAmount := filter (fun a => Bech32.bytes_eqb (Unit_ a) (str "lovelace")) (ApiAmounts u).
Lemma bf_amount_filter l : forall a, bf_amount l a = bf_amount (filter (fun a => Bech32.bytes_eqb (Unit_ a) (str "lovelace")) l) a.
Proof.
  induction l as [| x l IH]; intros a; cbn [bf_amount filter]; [reflexivity |]. destruct (Bech32.bytes_eqb _ _) eqn:E; [| apply IH].
  cbn [bf_amount]. rewrite E. destruct (atoi (Quantity x)); cbn [bind]; auto.
Qed.
Theorem C57_partial : forall l, Forall (fun '(u, (h, n)) => (exists am, lovelace u = [am] /\ decimal_of (Quantity am) n) /\ 0 <= n < 2 ^ 63 /\ 0 <= ApiIndex u < 2 ^ 16 /\
      length h = 32%nat /\ all_bytes h /\ map hex_fold (ApiTxHash u) = hex_of h) l ->
  bf_utxos (map fst l) = Ok (map (fun '(u, (h, n)) => {| TxHash := h; Index := ApiIndex u; InAmount := n |}) l).
Proof.
  induction 1 as [| [u [h n]] l ((am & EL & D) & N & I & L & B & T) _ IH]; [reflexivity |]. cbn [map fst bf_utxos].
  assert (EA : bf_amount (ApiAmounts u) 0 = Ok n).
  { rewrite bf_amount_filter. fold (lovelace u). rewrite EL. cbn [bf_amount].
    assert (Q : Bech32.bytes_eqb (Unit_ am) (str "lovelace") = true) by (assert (In am (lovelace u)) as X by (rewrite EL; left; auto); apply filter_In in X; apply X).
    rewrite Q, (atoi_decimal _ n) by auto. cbn [bind]. unfold u64. rewrite Z.mod_small by lia. reflexivity. }
  rewrite EA. cbn [bind]. rewrite IH. cbn [bind]. unfold u16. rewrite Z.mod_small by lia. rewrite (C36_valid _ h) by auto. reflexivity.
Qed.
Print Assumptions C57_partial.
(** An unparsable lovelace quantity anywhere gives the error and nothing else. *)
Theorem C57_error : forall l u am, In u l -> In am (lovelace u) -> atoi (Quantity am) = Err EAtoi -> bf_utxos l = Err EAtoi.
Proof.
  assert (A : forall l acc, bf_amount l acc = Err EAtoi \/ exists v, bf_amount l acc = Ok v).
  { induction l as [| x l IH]; intros acc; cbn [bf_amount]; [right; eauto |]. destruct (Bech32.bytes_eqb _ _); [| apply IH].
    destruct (atoi_total (Quantity x)) as [-> | (v & -> & _)]; [left; reflexivity | apply IH]. }
  assert (B : forall l acc am, In am (filter (fun a => Bech32.bytes_eqb (Unit_ a) (str "lovelace")) l) -> atoi (Quantity am) = Err EAtoi -> bf_amount l acc = Err EAtoi).
  { induction l as [| x l IH]; intros acc am H E; cbn [bf_amount filter] in *; [destruct H |]. destruct (Bech32.bytes_eqb _ _).
    - destruct H as [<- | H]; [rewrite E; reflexivity |]. destruct (atoi_total (Quantity x)) as [-> | (v & -> & _)]; [reflexivity |]. apply (IH _ am H E).
    - apply (IH acc am); auto. }
  induction l as [| x l IH]; intros u am Hu Ha E; [destruct Hu |]. cbn [bf_utxos]. destruct Hu as [-> | Hu].
  - rewrite (B _ _ am Ha E). reflexivity.
  - destruct (A (ApiAmounts x) 0) as [-> | (v & ->)]; [reflexivity |]. cbn [bind]. rewrite (IH u am Hu Ha E). reflexivity.
Qed.
Print Assumptions C57_error.
(** Exactly, for every answer of the service: each output gives one input, with the prefix of the hash text that is
    hexadecimal, the index modulo 2^16 and the last lovelace quantity modulo 2^64 (0 without one); unless some lovelace
    quantity is not the text of a signed 64-bit number, then there is an error and nothing else. *)
Inductive quantities : list ApiAmount -> list Z -> Prop :=
| quantities_nil : quantities [] []
| quantities_lovelace : forall am r n ns, Unit_ am = str "lovelace" -> int64_text (Quantity am) n -> quantities r ns -> quantities (am :: r) (n :: ns)
| quantities_other : forall am r ns, Unit_ am <> str "lovelace" -> quantities r ns -> quantities (am :: r) ns.
Definition utxo_input (u : ApiUTXO) (i : TxInput) : Prop := exists b ns, all_bytes b /\ hex_prefix (ApiTxHash u) b /\ quantities (ApiAmounts u) ns /\
  i = {| TxHash := b; Index := ApiIndex u mod 2 ^ 16; InAmount := last ns 0 mod 2 ^ 64 |}.
Lemma bf_amount_iff l : forall a0 a, bf_amount l (u64 a0) = Ok a <-> exists ns, quantities l ns /\ a = last ns a0 mod 2 ^ 64.
Proof.
  induction l as [| am l IH]; intros a0 a; cbn [bf_amount].
  - split; [intros [= <-]; exists []; split; [constructor | reflexivity] |]. intros (ns & Q & ->). inversion Q; subst. reflexivity.
  - destruct (Bech32.bytes_eqb (Unit_ am) (str "lovelace")) eqn:E.
    + assert (U : Unit_ am = str "lovelace") by (apply Bech32Facts.bytes_eqb_eq; exact E). split.
      * intros H. apply bind_ok in H as (v & H1 & H2). apply atoi_iff in H1. apply IH in H2 as (ns & Q & ->). exists (v :: ns). split; [constructor; auto |].
        destruct ns as [| x ns]; [reflexivity |]. cbn [last]. f_equal. clear. revert x. induction ns as [| y ns IH]; intros x; [reflexivity |]. apply (IH y).
      * intros (ns & Q & ->). inversion Q; subst; [| contradiction]. match goal with H : int64_text _ _ |- _ => apply atoi_iff in H; rewrite H end. cbn [bind].
        apply IH. eexists. split; [eassumption |]. match goal with |- last (?a :: ?b) _ mod _ = _ => destruct b as [| x ns0] end; [reflexivity |]. cbn [last]. f_equal. clear. revert x. induction ns0 as [| y ns0 IH]; intros x; [reflexivity |]. apply (IH y).
    + assert (U : Unit_ am <> str "lovelace") by (intros U; apply Bech32Facts.bytes_eqb_eq in U; congruence). rewrite IH. split; intros (ns & Q & ->).
      * exists ns. split; [constructor; auto | reflexivity].
      * inversion Q; subst; [contradiction |]. exists ns. auto.
Qed.
Theorem C57_exact : forall l, (forall r, bf_utxos l = Ok r <-> Forall2 utxo_input l r) /\ ((~ exists r, Forall2 utxo_input l r) -> bf_utxos l = Err EAtoi).
Proof.
  assert (T : forall l acc, bf_amount l acc = Err EAtoi \/ exists v, bf_amount l acc = Ok v).
  { induction l as [| x l IH]; intros acc; cbn [bf_amount]; [right; eauto |]. destruct (Bech32.bytes_eqb _ _); [| apply IH].
    destruct (atoi_total (Quantity x)) as [-> | (v & -> & _)]; [left; reflexivity | apply IH]. }
  assert (E : forall l r, bf_utxos l = Ok r <-> Forall2 utxo_input l r).
  { induction l as [| u l IH]; intros r; cbn [bf_utxos].
    - split; [intros [= <-]; constructor | inversion 1; reflexivity].
    - change 0 with (u64 0). split.
      + intros H. apply bind_ok in H as (a & H1 & H). apply bind_ok in H as (rest & H2 & [= <-]). apply bf_amount_iff in H1 as (ns & Q & ->). constructor; [| apply IH; exact H2].
        destruct (proj1 (C36_exact (ApiTxHash u) (u16 (ApiIndex u)) (last ns 0 mod 2 ^ 64) _) eq_refl) as (b & B & P & ->). exists b, ns. auto.
      + intros H. inversion H as [| ? i ? rest (b & ns & B & P & Q & ->) R]; subst. rewrite (proj2 (bf_amount_iff _ 0 (last ns 0 mod 2 ^ 64))) by (exists ns; auto). cbn [bind].
        rewrite (proj2 (IH rest) R). cbn [bind]. do 2 f_equal. apply C36_exact. exists b. auto. }
  intros l. split; [apply E |]. intros N. assert (D : bf_utxos l = Err EAtoi \/ exists r, bf_utxos l = Ok r).
  { clear N. induction l as [| u l IH]; cbn [bf_utxos]; [right; eauto |]. destruct (T (ApiAmounts u) 0) as [-> | (v & ->)]; [left; reflexivity |]. cbn [bind].
    destruct IH as [-> | (r & ->)]; [left; reflexivity | right; eexists; reflexivity]. }
  destruct D as [D | (r & D)]; [exact D |]. exfalso. apply N. exists r. apply E. exact D.
Qed.
Print Assumptions C57_exact.
(** Not faithful outside those ranges: negative quantities wrap, indices are truncated, bad hashes are cut. *)
Theorem C57_refuted : forall h i, bf_utxos [{| ApiTxHash := h; ApiIndex := i; ApiAmounts := [{| Unit_ := str "lovelace"; Quantity := str "-1" |}] |}] =
    Ok [NewTxInput h (i mod 2 ^ 16) (2 ^ 64 - 1)] /\
  forall s, exists s' b, all_bytes b /\ s' = hex_of b /\ NewTxInput s i 0 = NewTxInput s' i 0.
Proof. intros h i. split; [reflexivity |]. intros s. apply C36_malformed_refuted. Qed.
Print Assumptions C57_refuted.
Example C57_example : bf_utxos [{| ApiTxHash := hex_of (repeat 171 32); ApiIndex := 5; ApiAmounts := [{| Unit_ := str "aa"; Quantity := str "x" |}; {| Unit_ := str "lovelace"; Quantity := str "1234567" |}] |}]
  = Ok [{| TxHash := repeat 171 32; Index := 5; InAmount := 1234567 |}].
Proof. vm_compute. reflexivity. Qed.

(** ** C58 *)
Theorem C58_network : forall n, bf_submit_server n = bf_query_server n /\ (bf_query_server n = BfTestNet <-> NetworkId n = 0) /\ (bf_submit_server n = BfTestNet <-> NetworkId n = 0).
Proof.
  intros n. unfold bf_submit_server, bf_query_server. destruct (Z.eqb_spec (NetworkId n) 0); (split; [reflexivity |]); split; split; intros H; auto; try discriminate; contradiction.
Qed.
Print Assumptions C58_network.
Example C58_example : bf_query_server TestNet = BfTestNet /\ bf_query_server MainNet = BfMainNet.
Proof. split; reflexivity. Qed.

(** ** C59 *)
Theorem C59_partial : (forall p more, p <> [] -> cli_path (p :: more) = p) /\ cli_path [] = str "cardano-cli".
Proof. split; [| reflexivity]. intros [| c p] more H; [contradiction | reflexivity]. Qed.
Print Assumptions C59_partial.
Theorem C59_refuted : forall more, cli_path ([] :: more) = [].
Proof. reflexivity. Qed.
Print Assumptions C59_refuted.
Example C59_example : cli_path [str "/opt/cli"; str "x"] = str "/opt/cli".
Proof. reflexivity. Qed.

(** ** C68: protocol parameters *)
Theorem C68_parameters : forall a m, decimal_of (a_min_utxo a) m -> 0 <= m < 2 ^ 63 -> 0 <= a_min_fee_a a < 2 ^ 64 -> 0 <= a_min_fee_b a < 2 ^ 64 -> 0 <= a_max_tx_size a < 2 ^ 64 ->
  0 <= a_major a < 256 -> 0 <= a_minor a < 256 ->
  bf_protocol a = Ok {| p_fee_per_byte := a_min_fee_a a; p_fee_fixed := a_min_fee_b a; p_max_tx_size := a_max_tx_size a; p_major := a_major a; p_minor := a_minor a; p_min_utxo := m |}.
Proof.
  intros a m D M H1 H2 H3 H4 H5. unfold bf_protocol. rewrite (atoi_decimal _ m) by auto. cbn [bind]. unfold u64, u8. rewrite !Z.mod_small by lia. reflexivity.
Qed.
Print Assumptions C68_parameters.
Theorem C68_error : forall a, atoi (a_min_utxo a) = Err EAtoi -> bf_protocol a = Err EAtoi.
Proof. intros a H. unfold bf_protocol. rewrite H. reflexivity. Qed.
Print Assumptions C68_error.
Theorem C68_refuted : forall a m, atoi (a_min_utxo a) = Ok m -> bf_protocol a = Ok {| p_fee_per_byte := a_min_fee_a a mod 2 ^ 64; p_fee_fixed := a_min_fee_b a mod 2 ^ 64;
  p_max_tx_size := a_max_tx_size a mod 2 ^ 64; p_major := a_major a mod 256; p_minor := a_minor a mod 256; p_min_utxo := m mod 2 ^ 64 |}.
Proof. intros a m H. unfold bf_protocol. rewrite H. reflexivity. Qed.
Print Assumptions C68_refuted.
Example C68_example : bf_protocol {| a_min_fee_a := 44; a_min_fee_b := 155381; a_max_tx_size := 16384; a_major := 6; a_minor := 0; a_min_utxo := str "34482" |} =
  Ok {| p_fee_per_byte := 44; p_fee_fixed := 155381; p_max_tx_size := 16384; p_major := 6; p_minor := 0; p_min_utxo := 34482 |}.
Proof. vm_compute. reflexivity. Qed.
