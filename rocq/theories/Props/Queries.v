(** C107, C108: what the Blockfrost backend's UTXOs reports. *)
From Verif.Model Require Import Base Bech32 Hex Network Address Tx Node Queries.
From Verif.Spec Require Import CborSpec HexSpec AddressSpec NodeSpec QuerySpec.
From Verif.Proofs Require Import Util HexFacts Bech32Facts NodeFacts CborParse.
From Verif.Props Require Import Tx Node Shelley.

(** ** C107 *)
Lemma Forall2_len {A B} (R : A -> B -> Prop) l k : Forall2 R l k -> length l = length k.
Proof. induction 1; cbn; congruence. Qed.

(** Only the first page is asked for and converted (as in C57_exact), so the listing is complete exactly if there is no second page. *)
Theorem C107_exact : forall (U : Unicode) outputs per_page n a text r, addr_string a = Ok text -> bf_list n a (paged outputs per_page) = Ok r ->
  let all := outputs (bf_query_server n) text in
  Forall2 utxo_input (firstn per_page all) r /\ (Forall2 utxo_input all r <-> (length all <= per_page)%nat) /\ length r = Nat.min per_page (length all).
Proof.
  intros U outputs per_page n a text r E H all. unfold bf_list in H. rewrite E in H. cbn [bind paged page uq_page uq_server uq_address Nat.sub Nat.mul skipn] in H.
  unfold page in H. cbn [Nat.sub Nat.mul skipn] in H. fold all in H. apply (proj1 (C57_exact _)) in H. split; [exact H |]. pose proof (Forall2_len _ _ _ H) as L. rewrite firstn_length in L. split; [| symmetry; exact L]. split.
  - intros H2. apply Forall2_len in H2. lia.
  - intros Q. rewrite firstn_all2 in H by exact Q. exact H.
Qed.
Print Assumptions C107_exact.
(** False whenever the outputs need a second page: those on it are left out without an error. *)
Theorem C107_refuted : forall (U : Unicode) outputs per_page n a text r, addr_string a = Ok text -> Forall2 utxo_input (outputs (bf_query_server n) text) r -> (per_page < length r)%nat ->
  bf_list n a (paged outputs per_page) = Ok (firstn per_page r).
Proof.
  intros U outputs per_page n a text r E H L. unfold bf_list. rewrite E. cbn [bind paged uq_page uq_server uq_address]. unfold page. cbn [Nat.sub Nat.mul skipn]. apply (proj1 (C57_exact _)).
  clear L. revert per_page. induction H as [| u i l k R _ IH]; intros [| p]; cbn [firstn]; constructor; auto.
Qed.
Print Assumptions C107_refuted.
(** Whatever the service does: a listing is the conversion of an answer to the one query, so a failed query is an error and never an empty listing. *)
Theorem C107_answered : forall (U : Unicode) n a api r, bf_list n a api = Ok r ->
  exists text utxos, addr_string a = Ok text /\ api {| uq_server := bf_query_server n; uq_address := text; uq_page := None |} = Some utxos /\ Forall2 utxo_input utxos r.
Proof.
  intros U n a api r H. unfold bf_list in H. destruct (addr_string a) as [text | e |] eqn:E; cbn [bind] in H; try discriminate H.
  destruct (api _) as [utxos |] eqn:Q; [| discriminate H]. exists text, utxos. split; [reflexivity |]. split; [exact Q |]. apply (proj1 (C57_exact _)). exact H.
Qed.
Print Assumptions C107_answered.
Example C107_answered_example : forall U : Unicode, bf_list main_network placeholder_addr (fun _ => None) = Err EHttp /\ bf_list main_network placeholder_addr (fun _ => Some []) = Ok [].
Proof. intros U. split; vm_compute; reflexivity. Qed.
(** And for pointer addresses, whose String is empty: the service is not asked for the address. *)
Theorem C107_pointer_refuted : forall (U : Unicode) (R : Runtime) n p api, cred_ok (pa_pay p) -> 0 <= NetworkId (pa_net p) < 16 ->
  bf_list n (APointer p) api = match api {| uq_server := bf_query_server n; uq_address := []; uq_page := None |} with None => Err EHttp | Some l => bf_utxos l end.
Proof. intros U R n p api C I. unfold bf_list. rewrite (proj1 (C07_refuted U R p C I)). reflexivity. Qed.
Print Assumptions C107_pointer_refuted.
Definition ex_utxo (i : Z) : ApiUTXO := {| ApiTxHash := hex_of (repeat 171 32); ApiIndex := i; ApiAmounts := [{| Unit_ := str "lovelace"; Quantity := str "1234567" |}] |}.
Example C107_example : forall U : Unicode, bf_list main_network placeholder_addr (paged (fun _ _ => map ex_utxo [0; 1; 2]) 2) = Ok [{| TxHash := repeat 171 32; Index := 0; InAmount := 1234567 |}; {| TxHash := repeat 171 32; Index := 1; InAmount := 1234567 |}].
Proof. intros U. vm_compute. reflexivity. Qed.

(** ** C108 *)
(** False: two answers that agree in hashes, indices and lovelace entries are converted alike, whatever else the outputs hold. *)
Theorem C108_refuted : forall l k, Forall2 (fun u v => ApiTxHash u = ApiTxHash v /\ ApiIndex u = ApiIndex v /\ lovelace u = lovelace v) l k -> bf_utxos l = bf_utxos k.
Proof.
  induction 1 as [| u v l k (H & I & A) _ IH]; [reflexivity |]. cbn [bf_utxos]. rewrite (bf_amount_filter (ApiAmounts u)), (bf_amount_filter (ApiAmounts v)). fold (lovelace u) (lovelace v). rewrite H, I, A, IH. reflexivity.
Qed.
Print Assumptions C108_refuted.
Example C108_example : bf_utxos [{| ApiTxHash := hex_of (repeat 171 32); ApiIndex := 4; ApiAmounts := [{| Unit_ := str "lovelace"; Quantity := str "1234567" |}; {| Unit_ := str "b0d07d45fe9514f80213f4020e5a61241458be626841cde717cb38a76e7574636f696e"; Quantity := str "12" |}] |}]
  = bf_utxos [ex_utxo 4] /\ bf_utxos [ex_utxo 4] = Ok [{| TxHash := repeat 171 32; Index := 4; InAmount := 1234567 |}].
Proof. split; vm_compute; reflexivity. Qed.
