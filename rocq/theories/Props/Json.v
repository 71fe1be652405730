(** C77-C85: address prefixes, and the documents the node backends and LoadProtocol read and write. *)
From Verif.Model Require Import Base Bech32 Hex Cbor Network Address Tx Node Json.
From Verif.Spec Require Import CborSpec HexSpec AddressSpec TxSpec MdSpec NodeSpec JsonSpec Utf8Spec.
From Verif.Proofs Require Import Util HexFacts CborFacts CborParse TxFacts NodeFacts JsonFacts JsonKeys JsonDecode.
From Verif Require Props.Tx.
Open Scope Z_scope.

(** ** C77 *)
Theorem C77_prefix : forall a, ~ is_pointer a -> addr_Prefix a = own_prefix a.
Proof. intros [b | e | r | p | b] N; try reflexivity. destruct N. exact I. Qed.
Print Assumptions C77_prefix.
(** Full statement: [forall a, addr_Prefix a = own_prefix a]. A pointer address has it exactly on the main networks and on the one
    test network whose magic is known. *)
Theorem C77_pointer_partial : forall p, addr_Prefix (APointer p) = own_prefix (APointer p) <-> NetworkId (pa_net p) <> 0 \/ pa_net p = test_network.
Proof.
  intros p. cbn [addr_Prefix own_prefix net_of]. unfold pointer_prefix, net_eqb. destruct (pa_net p) as [i m]. cbn [NetworkId ProtocolMagic TestNet].
  destruct (Z.eqb_spec i 0) as [-> | N0]; cbn [andb].
  - destruct (Z.eqb_spec m 1097911063) as [-> | N1]; split; intros H; try reflexivity; try discriminate; [right; reflexivity |]. destruct H as [H | H]; [contradiction |]. injection H as H. contradiction.
  - split; [intros _; left; exact N0 | reflexivity].
Qed.
Print Assumptions C77_pointer_partial.
Theorem C77_pointer_refuted : forall p, NetworkId (pa_net p) = 0 -> pa_net p <> test_network -> addr_Prefix (APointer p) = str "addr" /\ own_prefix (APointer p) = str "addr_test".
Proof.
  intros p Z N. pose proof (C77_pointer_partial p) as P. cbn [own_prefix net_of] in *. rewrite Z in *. cbn [Z.eqb] in *. split; [| reflexivity].
  cbn [addr_Prefix] in *. unfold pointer_prefix in *. destruct (net_eqb _ _); [| reflexivity]. destruct (proj1 P eq_refl) as [X | X]; contradiction.
Qed.
Print Assumptions C77_pointer_refuted.
Example C77_example :
  let net := {| NetworkId := 0; ProtocolMagic := 1 |} in let c := NewKeyStakeCredential (repeat 7 28) in
  addr_Prefix (AEnterprise {| ea_net := net; ea_pay := c |}) = str "addr_test" /\
  addr_Prefix (APointer {| pa_net := net; pa_pay := c; pa_ptr := {| Slot := 1; TxIndex := 2; CertIndex := 3 |} |}) = str "addr".
Proof. split; reflexivity. Qed.

(** ** C78: the scanner accepts exactly the JSON texts nested at most 10000 deep, and reads each in one way *)
Theorem C78_syntax : forall s v, json_parse s = Some v <-> json_text v s /\ depth v <= 10000.
Proof. exact json_parse_spec. Qed.
Print Assumptions C78_syntax.
Theorem C78_unambiguous : forall s v v', json_text v s -> json_text v' s -> depth v <= 10000 -> depth v' <= 10000 -> v = v'.
Proof. intros s v v' T T' D D'. pose proof (proj2 (json_parse_spec s v) (conj T D)) as E. rewrite (proj2 (json_parse_spec s v') (conj T' D')) in E. injection E as ->. reflexivity. Qed.
Print Assumptions C78_unambiguous.
Definition ex_doc : bytes := str " {""a"": [1.5e3 , null],""b"":{}}".
Example C78_example : json_parse ex_doc = Some (JObj [(str "a", JArr [JNum (str "1.5e3"); JNull]); (str "b", JObj [])]) /\
  json_parse (str "{""a"":01}") = None /\ json_parse (str "[1,]") = None /\ json_parse (str "{} x") = None.
Proof. vm_compute. auto. Qed.

(** ** C79: what LoadProtocol and the command line backend read *)
Theorem C79_load : forall s p, LoadProtocol (Some s) = (p, false) <-> exists v, json_text v s /\ depth v <= 10000 /\ states_protocol v p.
Proof. exact load_spec. Qed.
Print Assumptions C79_load.
Theorem C79_cli : forall s p, cli_protocol (Some s) = (p, false) <-> exists v, json_text v s /\ depth v <= 10000 /\ states_protocol v p.
Proof. exact load_spec. Qed.
Print Assumptions C79_cli.
(** A file that cannot be read and a command that fails are reported. *)
Theorem C79_failure : snd (LoadProtocol None) = true /\ snd (cli_protocol None) = true /\ snd (cli_tip None) = true.
Proof. repeat split. Qed.
Print Assumptions C79_failure.
(** Every number in the result is one the document gives, or 0. *)
Lemma field_origin b nm o m n : field_from b nm o m n -> n = o \/ exists k v, In (k, v) m /\ names nm k /\ fits b v n.
Proof.
  intros H. induction H as [| m k v n n0 _ _ N F | m k n _ IH N | m k v n _ IH N]; [left; reflexivity | | |].
  - right. exists k, v. split; [apply in_app_iff; right; left; reflexivity | auto].
  - destruct IH as [-> | (k0 & v0 & I & X)]; [left; reflexivity | right; exists k0, v0; split; [apply in_app_iff; left; exact I | exact X]].
  - destruct IH as [-> | (k0 & v0 & I & X)]; [left; reflexivity | right; exists k0, v0; split; [apply in_app_iff; left; exact I | exact X]].
Qed.
Lemma field_uint b nm o m n : field_from b nm o m n -> 0 <= o < 2 ^ b -> 0 <= n < 2 ^ b.
Proof.
  intros H O. induction H as [| m k v n n0 _ _ N (t & -> & D & V & L) | m k n _ IH N | m k v n _ IH N]; auto. split; [| exact L]. rewrite <- V. unfold uint_value. destruct D as [_ D].
  assert (G : forall u a, 0 <= a -> (forall c, In c u -> 48 <= c <= 57) -> 0 <= fold_left (fun a c => 10 * a + (c - 48)) u a).
  { induction u as [|c u IH]; intros a A Q; [exact A |]. cbn [fold_left]. apply IH; [pose proof (Q c (or_introl eq_refl)); lia | intros x I; apply Q; right; exact I]. }
  apply G; [lia | exact D].
Qed.
Theorem C79_ranges : forall s p, LoadProtocol (Some s) = (p, false) ->
  (forall x, In x [p_fee_per_byte p; p_fee_fixed p; p_max_tx_size p; p_min_utxo p] -> 0 <= x < 2 ^ 64) /\ (forall x, In x [p_major p; p_minor p] -> 0 <= x < 256).
Proof.
  intros s p H. apply C79_load in H as (v & _ & _ & m & ver & _ & _ & A & B & C & D & E & F). split; intros x I.
  - cbn [In] in I. destruct I as [<- | [<- | [<- | [<- | []]]]]; eapply field_uint; try eassumption; lia.
  - change 256 with (2 ^ 8). cbn [In] in I. destruct I as [<- | [<- | []]]; eapply field_uint; try eassumption; lia.
Qed.
Print Assumptions C79_ranges.
(** case folding, an escaped name, a later occurrence, null, unknown members, and a document that does not fit *)
Definition ex_params : bytes := str "{""txFeeFixed"":1,""x"":[{}],""TXFEEPERBYTE"":44,""txFeeFixed"":155381,""maxTxSize"":null,
 ""protocolVersion"":{""major"":4},""protocolVersion"":{""minor"":1,""major"":null}}".
Example C79_example :
  LoadProtocol (Some ex_params) = ({| p_fee_per_byte := 44; p_fee_fixed := 155381; p_max_tx_size := 0; p_major := 4; p_minor := 1; p_min_utxo := 0 |}, false) /\
  snd (LoadProtocol (Some (str "{""txFeeFixed"":1e3}"))) = true /\ snd (LoadProtocol (Some (str "{""txFeeFixed"":""1""}"))) = true /\
  snd (LoadProtocol (Some (str "{""protocolVersion"":{""major"":256}}"))) = true.
Proof. vm_compute. auto. Qed.

(** ** C80 is false: parameters that are missing are not reported; they are 0 *)
Theorem C80_refuted : forall s m, json_text (JObj m) s -> depth (JObj m) <= 10000 -> (forall k v n, In (k, v) m -> In n protocol_names -> ~ names n k) ->
  LoadProtocol (Some s) = (zero_protocol, false).
Proof.
  intros s m T D N. apply C79_load. exists (JObj m). split; [exact T |]. split; [exact D |]. exists m, []. split; [left; reflexivity |].
  assert (F : forall n, In n protocol_names -> field 64 n m 0).
  { intros n I. unfold field. clear T D. revert N. induction m as [|[k v] m IH] using rev_ind; intros N; [constructor |]. apply f_other; [apply IH; intros k0 v0 n0 J; apply (N k0 v0); apply in_app_iff; left; exact J | apply (N k v); [apply in_app_iff; right; left; reflexivity | exact I]]. }
  split; [| cbn [zero_protocol p_fee_per_byte p_fee_fixed p_max_tx_size p_min_utxo p_major p_minor]; repeat (split; [apply F; cbn; auto 10 |]); split; constructor].
  clear T D F. revert N. induction m as [|[k v] m IH] using rev_ind; intros N; [constructor |]. apply g_other; [apply IH; intros k0 v0 n0 J; apply (N k0 v0); apply in_app_iff; left; exact J | apply (N k v); [apply in_app_iff; right; left; reflexivity | cbn; auto 10]].
Qed.
Print Assumptions C80_refuted.
(** Full statement: a document that loads names every parameter. What holds: a parameter that is not 0 is named. *)
Theorem C80_partial : forall s p, LoadProtocol (Some s) = (p, false) -> exists v m ver, json_text v s /\ object_of v m /\ gathered (str "protocolVersion") m ver /\
  forall nm x l b, In (nm, x, l, b) [(str "txFeePerByte", p_fee_per_byte p, m, 64); (str "txFeeFixed", p_fee_fixed p, m, 64); (str "maxTxSize", p_max_tx_size p, m, 64);
      (str "minUTxOValue", p_min_utxo p, m, 64); (str "major", p_major p, ver, 8); (str "minor", p_minor p, ver, 8)] ->
    x <> 0 -> exists k w, In (k, w) l /\ names nm k /\ fits b w x.
Proof.
  intros s p H. apply C79_load in H as (v & T & _ & m & ver & O & G & A & B & C & D & E & F). exists v, m, ver. split; [exact T |]. split; [exact O |]. split; [exact G |].
  intros nm x l b I X. assert (Q : field b nm l x). { cbn [In] in I. repeat (destruct I as [I | I]; [injection I as <- <- <- <-; assumption |]). destruct I. }
  destruct (field_origin _ _ _ _ _ Q) as [Y | Y]; [contradiction | exact Y].
Qed.
Print Assumptions C80_partial.
Example C80_example : LoadProtocol (Some (str "{}")) = (zero_protocol, false) /\ LoadProtocol (Some (str "null")) = (zero_protocol, false) /\
  LoadProtocol (Some (str "{""txFeePerBytes"": 44}")) = (zero_protocol, false).
Proof. vm_compute. auto. Qed.

(** ** C81: the tip *)
Theorem C81_cli : forall s t, cli_tip (Some s) = (t, false) <-> exists v, json_text v s /\ depth v <= 10000 /\ states_tip v t.
Proof. exact tip_spec. Qed.
Print Assumptions C81_cli.
Theorem C81_blockfrost : forall slot epoch height, 0 <= slot < 2 ^ 63 -> 0 <= epoch < 2 ^ 63 -> 0 <= height < 2 ^ 63 ->
  bf_tip slot epoch height = {| t_slot := slot; t_epoch := epoch; t_block := height |}.
Proof. intros a b c A B C. unfold bf_tip, u64. rewrite !Z.mod_small by lia. reflexivity. Qed.
Print Assumptions C81_blockfrost.
Example C81_example : cli_tip (Some (str "{""epoch"": 95, ""hash"": ""6d"", ""slot"": 20364371, ""block"": 2346891, ""era"": ""Mary""}")) =
    ({| t_slot := 20364371; t_epoch := 95; t_block := 2346891 |}, false) /\
  bf_tip 20364371 95 2346891 = {| t_slot := 20364371; t_epoch := 95; t_block := 2346891 |}.
Proof. vm_compute. auto. Qed.

(** ** C82: the file and the arguments of a submission *)
Definition envelope_members (hexs : list Z) : list (list Z * jvalue) := [(str "type", JStr []); (str "description", JStr []); (str "cborHex", JStr hexs)].
Lemma plain_chars s : Forall (fun c => 32 <= c /\ c <> 34 /\ c <> 92) s -> chars s.
Proof. intros H. induction H as [|c s (A & B & C) _ IH]; constructor; assumption. Qed.
Lemma nibble_plain d : 0 <= d < 16 -> 32 <= HexSpec.hex_digit d /\ HexSpec.hex_digit d <> 34 /\ HexSpec.hex_digit d <> 92.
Proof. intros D. unfold HexSpec.hex_digit. destruct (Z.ltb_spec d 10); lia. Qed.
Lemma hex_plain b : bytes_ok b -> chars (hex_of b).
Proof.
  intros B. apply plain_chars. induction B as [|x b X _ IH]; [constructor |]. unfold is_byte in X. cbn [hex_of flat_map app]. apply Forall_cons; [apply nibble_plain | apply Forall_cons; [apply nibble_plain | exact IH]]; [split; [apply Z.div_pos; lia | apply Z.div_lt_upper_bound; lia] | apply Z.mod_pos_bound; lia].
Qed.
Lemma envelope_text h : chars h -> json_text (JObj (envelope_members h)) (json_envelope h).
Proof.
  intros C. exists [], (json_envelope h), []. rewrite app_nil_r. split; [reflexivity |]. split; [apply ws_nil |]. split; [| apply ws_nil].
  assert (W : ws [10; 9]) by (intros c [<- | [<- | []]]; auto). assert (W1 : ws [32]) by (intros c [<- | []]; auto). assert (W2 : ws [10]) by (intros c [<- | []]; auto). pose proof ws_nil as W0.
  assert (P : forall s, Forall (fun c => 32 <= c /\ c <> 34 /\ c <> 92) s -> chars s) by exact plain_chars.
  assert (M : members (envelope_members h) ([10; 9] ++ 34 :: str "type" ++ 34 :: [] ++ 58 :: [32] ++ [34; 34] ++ [] ++ 44 ::
     ([10; 9] ++ 34 :: str "description" ++ 34 :: [] ++ 58 :: [32] ++ [34; 34] ++ [] ++ 44 :: ([10; 9] ++ 34 :: str "cborHex" ++ 34 :: [] ++ 58 :: [32] ++ (34 :: h ++ [34]) ++ [10])))).
  { apply m_more; [exact W | apply P; cbn; repeat (apply Forall_cons; [lia |]); apply Forall_nil | exact W0 | exact W1 | exact (v_str [] c_nil) | exact W0 |].
    apply m_more; [exact W | apply P; cbn; repeat (apply Forall_cons; [lia |]); apply Forall_nil | exact W0 | exact W1 | exact (v_str [] c_nil) | exact W0 |].
    apply m_one; [exact W | apply P; cbn; repeat (apply Forall_cons; [lia |]); apply Forall_nil | exact W0 | exact W1 | exact (v_str h C) | exact W2]. }
  apply v_obj in M. unfold json_envelope. cbn in M |- *. repeat (rewrite <- app_assoc in M; cbn [app] in M). exact M.
Qed.
Theorem C82_file : forall (C : TxCrypto) (MO : MapOrder) n t, runtime_order -> hash_ok -> tx_ok t ->
  exists s f, snd (tx_bytes n t) = Ok s /\ cli_submit_file n t = Ok f /\ json_parse f = Some (JObj (envelope_members (hex_of s))) /\ hex_decode (hex_of s) = Ok s.
Proof.
  intros C MO n t RO HO K. destruct (tx_bytes_spec n t RO HO K) as [E I]. apply cbor_bytes_ok in I. eexists. eexists. split; [rewrite E; reflexivity |]. unfold cli_submit_file, tx_hex. rewrite E. cbn [snd bind].
  rewrite hex_encode_of by exact I. split; [reflexivity |]. split; [| apply hex_decode_iff; split; [exact I | apply hex_fold_of; exact I]].
  apply json_parse_spec. split; [apply envelope_text, hex_plain; exact I | cbn; lia].
Qed.
Print Assumptions C82_file.
(** What the claim asks for beyond that, a type that names the era ("Tx MaryEra"), is missing: the type is empty. *)
Theorem C82_type_refuted : forall (C : TxCrypto) (MO : MapOrder) n t f, runtime_order -> hash_ok -> tx_ok t -> cli_submit_file n t = Ok f ->
  exists m, json_parse f = Some (JObj m) /\ forall k v, In (k, v) m -> names (str "type") k -> v = JStr [].
Proof.
  intros C MO n t f RO HO K E. destruct (C82_file C MO n t RO HO K) as (s & f' & _ & E' & P & _). rewrite E in E'. injection E' as <-. exists (envelope_members (hex_of s)). split; [exact P |].
  assert (NS : forall l, Forall letter l -> string_of l l).
  { intros l F. induction F as [|c l L _ IH]; [constructor |]. unfold letter in L. apply (s_plain c [c] l l); try lia; [left; lia | constructor; lia | exact IH]. }
  assert (ND : forall l, Forall letter l -> names (str "type") l -> map fold_char l = map fold_char (str "type")).
  { intros l F (l' & S' & Q). rewrite (string_of_fun l l' l S' (NS l F)) in Q. exact Q. }
  intros k v I N. cbn [envelope_members In] in I. destruct I as [I | [I | [I | []]]]; injection I as <- <-; [reflexivity | reflexivity |]. apply ND in N; [vm_compute in N; discriminate |]. cbn. repeat (apply Forall_cons; [unfold letter; lia |]); apply Forall_nil.
Qed.
Print Assumptions C82_type_refuted.
Example C82_example : json_envelope (str "83a4") = str "{
	""type"": """",
	""description"": """",
	""cborHex"": ""83a4""
}" /\ json_parse (json_envelope (str "83a4")) = Some (JObj (envelope_members (str "83a4"))).
Proof. vm_compute. auto. Qed.

(** ** C83 is false: options and their values are passed glued together as one argument *)
Theorem C83_refuted : forall n tmp addr,
  (~ In (str "--tx-file") (submit_args n tmp) /\ In (str "--tx-file " ++ tmp) (submit_args n tmp)) /\
  (~ In (str "--address") (utxos_args n addr) /\ In (str "--address " ++ addr) (utxos_args n addr)) /\
  (NetworkId n <> 0 -> forall args, ~ In (str "--testnet-magic") args -> ~ In (str "--testnet-magic") (cli_args n args) /\ In (str "--testnet-magic " ++ decimal (ProtocolMagic n)) (cli_args n args)).
Proof.
  intros n tmp addr. assert (SX : cli_suffix n = str "--mainnet" \/ cli_suffix n = str "--testnet-magic " ++ decimal (ProtocolMagic n)) by (unfold cli_suffix; destruct (NetworkId n =? 0); auto).
  split; [| split].
  - split; [| cbn [submit_args cli_args app In]; auto]. intros [H | [H | [H | []]]]; [discriminate | discriminate | destruct SX as [E | E]; rewrite E in H; discriminate].
  - split; [| cbn [utxos_args cli_args app In]; auto]. intros [H | [H | [H | [H | []]]]]; [discriminate | discriminate | discriminate | destruct SX as [E | E]; rewrite E in H; discriminate].
  - intros N args A. assert (E : cli_suffix n = str "--testnet-magic " ++ decimal (ProtocolMagic n)) by (unfold cli_suffix; rewrite (proj2 (Z.eqb_neq _ _) N); reflexivity). unfold cli_args. rewrite E. split; [| apply in_app_iff; right; left; reflexivity].
    intros H. apply in_app_iff in H as [H | [H | []]]; [exact (A H) | discriminate].
Qed.
Print Assumptions C83_refuted.
(** What holds: the arguments are the words given, in order, followed by the network. *)
Theorem C83_partial : forall n tmp addr,
  submit_args n tmp = [str "submit"; str "--tx-file " ++ tmp; cli_suffix n] /\ utxos_args n addr = [str "query"; str "utxos"; str "--address " ++ addr; cli_suffix n].
Proof. intros. split; reflexivity. Qed.
Print Assumptions C83_partial.
Example C83_example : submit_args MainNet (str "/tmp/gada-tx-1") = [str "submit"; str "--tx-file /tmp/gada-tx-1"; str "--testnet-magic 764824073"].
Proof. reflexivity. Qed.

(** ** C84: submission through the web API *)
Definition submission (n : NetworkInfo) (project s : bytes) : Request :=
  {| rq_server := if NetworkId n =? 0 then BfTestNet else BfMainNet; rq_path := str "tx/submit";
     rq_headers := [(str "project_id", project); (str "Content-Type", str "application/cbor")]; rq_body := s |}.
(** What holds: one request, which carries the transaction's bytes to the configured network, decides the outcome; there is no
    error exactly for status 200, and then the returned string is the body of the answer. Missing: the id is not taken out of it. *)
Theorem C84_partial : forall (C : TxCrypto) (MO : MapOrder) n project clock t, runtime_order -> hash_ok -> tx_ok t ->
  exists s, snd (tx_bytes clock t) = Ok s /\ forall http, exists r e, bf_submit n project clock t http = Ok (r, e) /\
    (e = None <-> http (submission n project s) = Answer 200 r) /\
    (forall status body, status <> 200 -> http (submission n project s) = Answer status body -> e = Some (SubmitStatus body)) /\
    (forall http', http' (submission n project s) = http (submission n project s) -> bf_submit n project clock t http' = Ok (r, e)).
Proof.
  intros C MO n project clock t RO HO K. destruct (tx_bytes_spec clock t RO HO K) as [E _]. eexists. split; [rewrite E; reflexivity |].
  intros http. set (s := cbor _). assert (B : forall h, bf_submit n project clock t h = match h (submission n project s) with
    | NoAnswer | Unreadable => Ok ([], Some SubmitTransport)
    | Answer status resb => Ok (resb, if status =? 200 then None else Some (SubmitStatus resb)) end) by (intros h; unfold bf_submit; rewrite E; reflexivity).
  pose proof (B http) as B1. destruct (http (submission n project s)) as [| | st body] eqn:Eh.
  - exists [], (Some SubmitTransport). split; [exact B1 |]. split; [split; discriminate |]. split; [discriminate |]. intros h Q. rewrite B, Q. reflexivity.
  - exists [], (Some SubmitTransport). split; [exact B1 |]. split; [split; discriminate |]. split; [discriminate |]. intros h Q. rewrite B, Q. reflexivity.
  - exists body. eexists. split; [exact B1 |]. split; [| split].
    + destruct (Z.eqb_spec st 200) as [-> | N]; [split; reflexivity |]. split; [discriminate |]. intros Q. injection Q as Q. contradiction.
    + intros status b N Q. injection Q as <- <-. rewrite (proj2 (Z.eqb_neq _ _) N). reflexivity.
    + intros h Q. rewrite B, Q. reflexivity.
Qed.
Print Assumptions C84_partial.
(** The API answers with the transaction id as a JSON string. Whatever the id and however the string is written, what
    SubmitTx returns is not the id. *)
Theorem C84_refuted : forall (C : TxCrypto) (MO : MapOrder) n project clock t id raw body http, runtime_order -> hash_ok -> tx_ok t ->
  Forall hex id -> string_of raw id -> json_text (JStr raw) body -> (forall rq, http rq = Answer 200 body) ->
  exists r, bf_submit n project clock t http = Ok (r, None) /\ r <> id.
Proof.
  intros C MO n project clock t id raw body http RO HO K Hid _ J Eh. destruct (tx_bytes_spec clock t RO HO K) as [E _].
  exists body. split; [unfold bf_submit; rewrite E; cbn [snd]; rewrite Eh; reflexivity |]. intros <-.
  destruct J as (w1 & x & w2 & -> & _ & V & _). inversion V; subst.
  rewrite Forall_forall in Hid. assert (Q : hex 34) by (apply Hid; apply in_app_iff; right; left; reflexivity). unfold hex in Q. lia.
Qed.
Print Assumptions C84_refuted.
Example C84_example : let id := str "bf0be8a8b3a1c08df8d2fa7a1b7d3c84d4e2e4b1f3a5c6d7e8f90a1b2c3d4e5f" in let body := 34 :: id ++ [34] in
  json_text (JStr id) body /\ length id = 64%nat /\ tx_ok Props.Tx.ex_tx.
Proof.
  cbv zeta. split; [| split; [reflexivity | apply Props.Tx.ex_tx_ok]]. apply (proj1 (json_parse_spec _ _)). vm_compute. reflexivity.
Qed.

(** ** C85: Hex *)
Theorem C85_hex : forall (C : TxCrypto) (MO : MapOrder) n t, fst (tx_hex n t) = fst (tx_bytes n t) /\
  (forall e, snd (tx_hex n t) = Err e <-> snd (tx_bytes n t) = Err e) /\
  forall s, snd (tx_bytes n t) = Ok s -> all_bytes s -> snd (tx_hex n t) = Ok (hex_of s).
Proof.
  intros C MO n t. unfold tx_hex. destruct (tx_bytes n t) as [b r]. cbn [fst snd]. split; [reflexivity |]. split.
  - intros e. destruct r; cbn [bind]; split; congruence.
  - intros s -> B. cbn [bind]. rewrite hex_encode_of; [reflexivity |]. apply CborParse.all_bytes_ok. exact B.
Qed.
Print Assumptions C85_hex.
Theorem C85_valid : forall (C : TxCrypto) (MO : MapOrder) n t, runtime_order -> hash_ok -> tx_ok t ->
  exists s h, snd (tx_bytes n t) = Ok s /\ snd (tx_hex n t) = Ok h /\ h = hex_of s /\ forall s', all_bytes s' -> hex_of s' = h -> s' = s.
Proof.
  intros C MO n t RO HO K. destruct (tx_bytes_spec n t RO HO K) as [E I]. apply cbor_bytes_ok in I. eexists. eexists. split; [rewrite E; reflexivity |].
  split; [apply (C85_hex C MO n t); [rewrite E; reflexivity | apply CborParse.all_bytes_ok; exact I] |]. split; [reflexivity |].
  intros s' B H. apply CborParse.all_bytes_ok in B. pose proof (proj2 (hex_decode_iff (hex_of s') s') (conj B (hex_fold_of s' B))) as D'. rewrite H in D'.
  rewrite (proj2 (hex_decode_iff _ _) (conj I (hex_fold_of _ I))) in D'. congruence.
Qed.
Print Assumptions C85_valid.
Theorem C85_body : forall b, (forall e, body_hex b = Err e <-> body_marshal b = Err e) /\
  (forall s, body_marshal b = Ok s -> all_bytes s -> body_hex b = Ok (hex_of s)) /\
  (body_ok b -> exists s, body_marshal b = Ok s /\ all_bytes s /\ body_hex b = Ok (hex_of s)).
Proof.
  intros b. assert (H : forall s, body_marshal b = Ok s -> all_bytes s -> body_hex b = Ok (hex_of s)).
  { intros s E B. unfold body_hex. rewrite E. cbn [bind]. rewrite hex_encode_of; [reflexivity |]. apply CborParse.all_bytes_ok. exact B. }
  split; [| split; [exact H |]].
  - intros e. unfold body_hex. destruct (body_marshal b); cbn [bind]; split; congruence.
  - intros K. pose proof (body_marshal_spec b K) as E. exists (cbor (the_body b)). split; [exact E |].
    assert (B : all_bytes (cbor (the_body b))) by (apply CborParse.all_bytes_ok; apply cbor_bytes_ok; apply the_body_ok; exact K).
    split; [exact B | apply H; assumption].
Qed.
Print Assumptions C85_body.
Example C85_example : tx_ok Props.Tx.ex_tx /\ exists h, snd (@tx_hex Props.Tx.ex_crypto Props.Tx.id_order 0 Props.Tx.ex_tx) = Ok h /\ length h = 632%nat.
Proof. split; [apply Props.Tx.ex_tx_ok |]. eexists. split; vm_compute; reflexivity. Qed.
