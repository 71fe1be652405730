(** C87: texts that make NewAddress panic. *)
From Verif.Model Require Import Base Bech32 Hex Base58 Cbor Network Address.
From Verif.Spec Require Import Bech32Spec BchSpec Cip19 AddressSpec CborSpec ByronSpec Base58Spec.
From Verif.Proofs Require Import Util Bech32Facts Bech32Props BchFacts AddressFacts AddressParse AddressProps Base58Facts ByronFacts.

(** NewAddress takes such a text as bech32, every other one as base58. *)
Definition shelley_text (s : list Z) : Prop := exists t, s = str "addr" ++ t \/ s = str "stake" ++ t.
(** The header announces a base address and the backing array is too short for one. *)
Definition short_base (b : list Z) (capacity : nat) : Prop := b <> [] /\ nth 0 b 0 / 16 < 4 /\ (capacity < 57)%nat.

Lemma shelley_text_iff s : has_prefix s (str "addr") || has_prefix s (str "stake") = true <-> shelley_text s.
Proof.
  rewrite orb_true_iff. split.
  - intros [H | H]; apply has_prefix_split in H as (t & ->); exists t; auto.
  - intros (t & [-> | ->]); [left | right]; apply has_prefix_app.
Qed.

(** C87. Full statement: [forall s, NewAddress s <> Panic]. Exactly the texts that panic, among the ASCII ones: as base58, every text
    that is empty or has a character outside the alphabet, and every text of too short a base address; as bech32, the texts of no
    bytes and of too short a base address. *)
Theorem C87_exact : forall (U : Unicode) (R : Runtime) s, ascii_string s -> (NewAddress s = Panic <->
  (shelley_text s /\ exists hrp b, bech32_text s hrp b /\ (b = [] \/ short_base b (length b + length (append_spare (length b))))) \/
  (~ shelley_text s /\ (s = [] \/ (exists c, In c s /\ ~ b58_char c) \/ exists b, all_bytes b /\ b58_text s b /\ short_base b (length b)))).
Proof.
  intros U R s A. unfold NewAddress. pose proof (shelley_text_iff s) as T. destruct (has_prefix s (str "addr") || has_prefix s (str "stake")).
  - assert (S : shelley_text s) by (apply T; reflexivity). split.
    + intros H. left. split; [exact S |]. destruct (decode s) as [[hrp b] | e |] eqn:D; [| discriminate | exfalso; exact (C61_lemma s (or_introl A) D)].
      cbn [bind] in H. apply (bech32_text_decode s hrp b A) in D. exists hrp, b. split; [exact D |]. destruct D as (_ & B & _).
      assert (B' : bytes_ok b) by (apply Forall_forall; intros x Hx; specialize (B x Hx); unfold is_byte; lia). apply parse_panic in H as [-> | [H1 H2]]; [left; reflexivity | | exact B'].
      destruct b as [| x b]; [left; reflexivity |]. right. split; [discriminate | auto].
    + intros [(_ & hrp & b & D & H) | [N _]]; [| contradiction]. assert (B' : bytes_ok b) by (apply Forall_forall; intros x Hx; pose proof (proj1 (proj2 D) x Hx); unfold is_byte; lia).
      apply (bech32_text_decode s hrp b A) in D. rewrite D. cbn [bind]. apply parse_panic; [exact B' |]. destruct H as [-> | (_ & H)]; auto.
  - assert (S : ~ shelley_text s) by (intros S; apply T in S; discriminate).
    assert (Dec : (forall c, In c s -> b58_char c) \/ exists c, In c s /\ ~ b58_char c).
    { clear. induction s as [| x s IH]; [left; intros c [] |]. assert (X : b58_char x \/ ~ b58_char x) by (unfold b58_char; lia).
      destruct X as [X | X]; [| right; exists x; split; [left; reflexivity | exact X]].
      destruct IH as [IH | (c & H & N)]; [left; intros c [<- | H]; auto | right; exists c; split; [right; exact H | exact N]]. }
    split.
    + intros H. right. split; [exact S |]. destruct Dec as [G | Bad]; [| auto]. destruct (b58_decode_text s G) as [B E].
      pose proof (encode_text _ B) as T'. rewrite E in T'. apply parse_panic in H as [H | [H1 H2]]; [| | exact B].
      * left. rewrite H in E. symmetry. exact E.
      * destruct s as [| x s]; [left; reflexivity |]. right; right. exists (b58_decode (x :: s)). split; [apply CborParse.all_bytes_ok; exact B |]. split; [exact T' |].
        split; [intros E0; rewrite E0 in E; discriminate E |]. split; [exact H1 | cbn [length] in H2; lia].
    + intros [[S' _] | [_ [-> | [(c & H & N) | (b & B & T' & H)]]]]; [contradiction | reflexivity | |].
      * rewrite (b58_decode_bad s c H N). reflexivity.
      * apply CborParse.all_bytes_ok in B. rewrite (decode_text s b B T'). apply parse_panic; [exact B |]. right. destruct H as (_ & H1 & H2). split; [exact H1 | cbn [length]; lia].
Qed.
Print Assumptions C87_exact.

(** Mistyping a character of a Byron address as 0, O, I or l, or anything else outside the alphabet, makes NewAddress panic. *)
Theorem C87_typo_refuted : forall (U : Unicode) (R : Runtime) s i c, ascii_string s -> (forall x, In x s -> b58_char x) -> ~ shelley_text s ->
  (4 < i < length s)%nat -> 0 <= c < 128 -> ~ b58_char c -> NewAddress (firstn i s ++ c :: skipn (S i) s) = Panic.
Proof.
  intros U R s i c A G S Hi Hc N. apply C87_exact.
  - intros x Hx. apply in_app_or in Hx as [Hx | [<- | Hx]]; [| lia |]; apply A; [rewrite <- (firstn_skipn i s) | rewrite <- (firstn_skipn (Datatypes.S i) s)]; apply in_or_app; auto.
  - right. split.
    + intros (t & E). apply S. exists (skipn (length (str "addr")) s). assert (P : forall p, (length p <= i)%nat -> firstn i s ++ c :: skipn (Datatypes.S i) s = p ++ t -> s = p ++ skipn (length p) s).
      { intros p Lp Ep. rewrite <- (firstn_skipn (length p) s) at 1. f_equal. apply (f_equal (firstn (length p))) in Ep. rewrite firstn_app, firstn_firstn, firstn_length in Ep.
        replace (Nat.min (length p) i) with (length p) in Ep by lia. replace (length p - Nat.min i (length s))%nat with 0%nat in Ep by lia. cbn [firstn] in Ep. rewrite app_nil_r in Ep.
        rewrite Ep, firstn_app, Nat.sub_diag, firstn_all. apply app_nil_r. }
      destruct E as [E | E]; [left; apply (P (str "addr")) in E; [exact E | cbn; lia] |].
      exfalso. apply S. exists (skipn (length (str "stake")) s). right. apply P; [cbn; lia | exact E].
    + right; left. exists c. split; [apply in_or_app; right; left; reflexivity | exact N].
Qed.
Print Assumptions C87_typo_refuted.
(** The address of address_test.go:72 with its twelfth character replaced. *)
#[local] Instance no_unicode : Unicode := {| uni_lower := fun s => s; uni_upper := fun s => s |}.
#[local] Existing Instance go117.
Definition ex_text : bytes := str "Ae2tdPwUPEZFRbyhz3cpfC2CumGzNkFBN2L42rcUc2yjQpEkxDbkPodpMAi".
Example C87_example : ascii_string ex_text /\ (forall x, In x ex_text -> b58_char x) /\ ~ shelley_text ex_text /\
  (exists a, NewAddress ex_text = Ok a) /\ NewAddress (str "Ae2tdPwUPEZ0Rbyhz3cpfC2CumGzNkFBN2L42rcUc2yjQpEkxDbkPodpMAi") = Panic /\ NewAddress (str "addr") <> Panic.
Proof.
  split; [intros c H; cbn in H; lia |]. split; [intros c H; cbn in H; unfold b58_char; lia |]. split; [intros (t & [H | H]); discriminate H |].
  split; [eexists; vm_compute; reflexivity |]. split; [vm_compute; reflexivity | vm_compute; discriminate].
Qed.
(** A bech32 text whose payload is empty panics, too. *)
Example C87_empty : exists s, bech32_text s (str "addr") [] /\ NewAddress s = Panic.
Proof.
  exists (str "addr1mykd6t"). split; [| vm_compute; reflexivity].
  apply (@bech32_text_decode no_unicode); [intros c H; cbn in H; lia | vm_compute; reflexivity].
Qed.
