(** C121: from the text of an address to the output of a serialised transaction. *)
From Verif.Model Require Import Base Bech32 Network Address Cbor Tx.
From Verif.Spec Require Import Bech32Spec BchSpec Cip19 AddressSpec CborSpec ByronSpec TxSpec MdSpec Values.
From Verif.Proofs Require Import Util Bech32Facts Bech32Props BchFacts AddressFacts AddressParse AddressProps CborFacts TxFacts.
From Verif.Props Require Import Shelley Text ShelleyExact UnicodeText Tx.
Open Scope Z_scope.

(** What the ledger reads: output j of a transaction pays v lovelace to the address with the bytes d. *)
Definition pays (it : item) (j : nat) (d : bytes) (v : Z) : Prop :=
  exists body rest outs, it = Arr (Map body :: rest) /\ In (Uint 1, Arr outs) body /\ nth_error outs j = Some (Arr [Bstr d; Uint v]).

(** Full statement: money sent to an address given as text goes to the bytes that the text carries. Exactly when it does: *)
Theorem C121_exact : forall (U : Unicode) (R : Runtime) (C : TxCrypto) (MO : MapOrder) s hrp data a v n t j,
  (forall k, bytes_ok (append_spare k)) -> runtime_order -> hash_ok -> tx_ok t -> Forall shelley_out (Outputs (Body t)) ->
  ascii_string s -> shelley_text s -> bech32_text s hrp data -> zlen data < 2 ^ 32 -> NewAddress s = Ok a ->
  nth_error (Outputs (Body t)) j = Some {| OutAddress := a; OutAmount := v |} ->
  exists it d, snd (tx_bytes n t) = Ok (cbor it) /\ item_ok it /\ pays it j d v /\
    (d = data <->
     match a with
     | ABase _ => nth 0 data 0 mod 16 <= 1 /\ length data = 57%nat
     | AEnterprise _ => nth 0 data 0 mod 16 <= 1
     | APointer _ => nth 0 data 0 mod 16 <= 1 /\ canonical_pointer data
     | _ => False
     end).
Proof.
  intros U R C MO s hrp data a v n t j BS RO HO TK SO As T D L N O.
  destruct (C21_partial C MO n t RO HO TK SO) as (aux & meta & it & s' & E & -> & I & Ei & _ & _).
  exists it, (addr_bytes a). split; [exact E |]. split; [exact I |]. split.
  - rewrite Ei. unfold pays, tx_item, body_item. do 3 eexists. split; [reflexivity |]. split; [right; left; reflexivity |].
    rewrite !nth_error_map, O. reflexivity.
  - assert (B : bytes_ok data) by (apply byte_string_spec; apply D).
    assert (P : NewAddressFromBytes data (append_spare (length data)) = Ok a).
    { apply (C15_exact U R s a As T) in N as (hrp' & b & D' & P). apply (bech32_text_decode s _ _ As) in D, D'. rewrite D in D'. injection D' as _ <-. exact P. }
    pose proof (C09_exact data _ a B (BS _) L P) as X.
    pose proof (proj1 (Forall_forall _ _) SO _ (nth_error_In _ _ O)) as Sh. unfold shelley_out in Sh. cbn [OutAddress] in Sh.
    destruct TK as ((_ & OK & _) & _). pose proof (proj1 (Forall_forall _ _) OK _ (nth_error_In _ _ O)) as Ok1. unfold out_ok in Ok1. cbn [OutAddress] in Ok1.
    destruct a; try exact X; exfalso; [exact (proj1 Ok1) | exact Sh].
Qed.
Print Assumptions C121_exact.
(** False of this text, whatever transaction has an output to it: it carries the network number 5, the output has another. *)
Theorem C121_refuted : forall (U : Unicode) (R : Runtime), (forall k, bytes_ok (append_spare k)) -> exists s hrp data a,
  ascii_string s /\ shelley_text s /\ bech32_text s hrp data /\ NewAddress s = Ok a /\
  forall (C : TxCrypto) (MO : MapOrder) v n t j, runtime_order -> hash_ok -> tx_ok t -> Forall shelley_out (Outputs (Body t)) ->
    nth_error (Outputs (Body t)) j = Some {| OutAddress := a; OutAmount := v |} ->
    exists it d, snd (tx_bytes n t) = Ok (cbor it) /\ pays it j d v /\ d <> data.
Proof.
  intros U R BS. set (data := 0x65 :: ex_hash 3). assert (B : byte_string data) by (intros c I; assert (F : forallb (fun c => (0 <=? c) && (c <=? 255)) data = true) by (vm_compute; reflexivity); rewrite forallb_forall in F; apply F in I; lia).
  assert (V : valid_hrp (str "addr")) by (split; [discriminate |]; split; [intros c H; cbn in H; lia | left; intros c H; unfold is_upper; cbn in H; lia]).
  destruct (bech32_text_encode (str "addr") data V B) as (s & E & D & _). pose proof (text_chars _ _ _ D) as As.
  assert (T : shelley_text s). { exists (skipn 4 s). left. destruct D as (_ & _ & _ & Fn & _). change (length (str "addr")) with 4%nat in Fn. rewrite <- Fn. symmetry. apply firstn_skipn. }
  assert (P : forall spare, exists e, NewAddressFromBytes data spare = Ok (AEnterprise e)) by (intros spare; eexists; vm_compute; reflexivity).
  destruct (P (append_spare (length data))) as (e & Pe). assert (N : NewAddress s = Ok (AEnterprise e)) by (apply (C15_exact U R s _ As T); exists (str "addr"), data; split; assumption).
  exists s, (str "addr"), data, (AEnterprise e). split; [exact As |]. split; [exact T |]. split; [exact D |]. split; [exact N |].
  intros C MO v n t j RO HO TK SO O. destruct (C121_exact U R C MO s _ data _ v n t j BS RO HO TK SO As T D ltac:(vm_compute; reflexivity) N O) as (it & d & E1 & _ & Pd & X).
  exists it, d. split; [exact E1 |]. split; [exact Pd |]. intros Y. apply X in Y. vm_compute in Y. apply Y. reflexivity.
Qed.
Print Assumptions C121_refuted.
(** The text of the address itself: what is paid to is what the text carries. *)
Theorem C121_own : forall (U : Unicode) (R : Runtime) (C : TxCrypto) (MO : MapOrder) a v n t j, runtime_order -> hash_ok -> tx_ok t -> Forall shelley_out (Outputs (Body t)) ->
  shelley_ok a -> ~ is_pointer a -> nth_error (Outputs (Body t)) j = Some {| OutAddress := a; OutAmount := v |} ->
  exists s it, NewAddress s = Ok a /\ bech32_text s (own_prefix a) (addr_bytes a) /\ snd (tx_bytes n t) = Ok (cbor it) /\ item_ok it /\ pays it j (addr_bytes a) v.
Proof.
  intros U R C MO a v n t j RO HO TK SO K NP O. destruct (C06_bip173 U R a K NP) as (s & E & T & _). destruct (C06_string_roundtrip U R a K NP) as (s' & body & E' & _ & N & _).
  rewrite E in E'. apply Ok_inj in E'. subst s'. destruct (C21_partial C MO n t RO HO TK SO) as (aux & meta & it & s' & E1 & -> & I & Ei & _ & _).
  exists s, it. split; [exact N |]. split; [exact T |]. split; [exact E1 |]. split; [exact I |]. rewrite Ei. unfold pays, tx_item, body_item. do 3 eexists. split; [reflexivity |]. split; [right; left; reflexivity |].
  rewrite !nth_error_map, O. reflexivity.
Qed.
Print Assumptions C121_own.
Example C121_example : tx_ok ex_tx /\ Forall shelley_out (Outputs (Body ex_tx)) /\ (forall k, bytes_ok (@append_spare go117 k)) /\
  shelley_ok (OutAddress (ex_out MainNet 5)) /\ nth_error (Outputs (Body ex_tx)) 1 = Some (ex_out MainNet 5).
Proof.
  split; [apply ex_tx_ok |]. split; [repeat constructor |]. split; [intros k; cbn [append_spare go117]; apply Forall_forall; intros x I; apply repeat_spec in I; subst x; cbv; split; [discriminate | reflexivity] |].
  split; [| reflexivity]. split; [| left; reflexivity]. split; [cbn; auto |]. split; [reflexivity |]. apply bytes_repeat. lia.
Qed.
