(** C120: the example that reads an address. *)
From Verif.Model Require Import Base Bech32 Hex Base58 Cbor Network Address Decode.
From Verif.Spec Require Import Bech32Spec BchSpec Cip19 AddressSpec CborSpec ByronSpec Base58Spec.
From Verif.Proofs Require Import Util Bech32Facts Bech32Props BchFacts AddressFacts AddressParse AddressProps ByronFacts.
From Verif.Props Require Import Shelley Text ShelleyExact UnicodeText Byron.
#[local] Lemma Ok_inj {A} (a b : A) : Ok a = Ok b -> a = b. Proof. intros E. injection E. auto. Qed.
Open Scope Z_scope.

(** What is printed before the address, if it is printed at all *)
Definition announced (a : Address) : option bytes :=
  match a with ABase _ => Some (str "Base Addr:") | AEnterprise _ => Some (str "Enterprise Address:") | _ => None end.
Definition line (a : Address) (s : bytes) : list bytes := match announced a with Some n => [n; s] | None => [str "Not baseAddress"] end.

(** The text of an address is printed back after the name of its kind. *)
Theorem C120_own : forall (U : Unicode) (R : Runtime) a, shelley_ok a -> ~ is_pointer a ->
  exists s, addr_string a = Ok s /\ bech32_text s (own_prefix a) (addr_bytes a) /\ simple_decode s = Ok (line a s).
Proof.
  intros U R a K NP. destruct (C06_bip173 U R a K NP) as (s & E & T & _). destruct (C06_string_roundtrip U R a K NP) as (s' & body & E' & _ & N & _).
  rewrite E in E'. apply Ok_inj in E'. subst s'. exists s. split; [exact E |]. split; [exact T |]. unfold simple_decode. rewrite N. cbn [bind].
  destruct a; cbn [line announced]; try reflexivity; rewrite E; reflexivity.
Qed.
Print Assumptions C120_own.
Theorem C120_byron : forall (U : Unicode) (R : Runtime) b, byron_ok b -> (length (by_payload b) <= 512)%nat ->
  exists s, b58_text s (addr_bytes (AByron b)) /\ simple_decode s = Ok [str "Not baseAddress"].
Proof. intros U R b K L. destruct (C18_string_roundtrip U R b K L) as (s & _ & T & N). exists s. split; [exact T |]. unfold simple_decode. rewrite N. reflexivity. Qed.
Print Assumptions C120_byron.
(** Full statement: whatever address is printed is the text that was given. Missing: other prefixes and bytes that are
    not those of the address, for which it is false. Exactly when it is so: *)
Theorem C120_exact : forall (U : Unicode) (R : Runtime) s a, ascii_string s -> shelley_text s -> NewAddress s = Ok a -> shelley_ok a -> announced a <> None ->
  exists t hrp data, simple_decode s = Ok (line a t) /\ bech32_text t (own_prefix a) (addr_bytes a) /\ bech32_text s hrp data /\
    (t = s <-> hrp = own_prefix a /\ data = addr_bytes a).
Proof.
  intros U R s a As T N K An. assert (NP : ~ is_pointer a) by (intros P; apply An; destruct a; try contradiction P; reflexivity).
  destruct (C120_own U R a K NP) as (t & E & Tx & _). destruct T as (r & T). destruct (C15_partial U R s r a As T N) as (hrp & data & D & _ & Q).
  exists t, hrp, data. split. { unfold simple_decode. rewrite N. cbn [bind]. destruct a; try (elim An; reflexivity); rewrite E; reflexivity. }
  split; [exact Tx |]. split; [exact D |]. split.
  - intros ->. apply (bech32_text_decode s _ _ As) in Tx, D. rewrite Tx in D. injection D as -> ->. split; reflexivity.
  - intros [P B]. apply (Q K NP B) in P. rewrite E in P. apply Ok_inj in P. exact P.
Qed.
Print Assumptions C120_exact.
(** False for every base and enterprise address: a text of it with another prefix is accepted too. *)
Theorem C120_refuted : forall (U : Unicode) (R : Runtime) a, shelley_ok a -> announced a <> None ->
  exists s t, simple_decode s = Ok (line a t) /\ bech32_text t (own_prefix a) (addr_bytes a) /\ t <> s.
Proof.
  intros U R a K An. assert (NP : ~ is_pointer a) by (intros P; apply An; destruct a; try contradiction P; reflexivity).
  assert (V : valid_hrp (str "addrx")) by (split; [discriminate |]; split; [intros c H; cbn in H; lia | left; intros c H; unfold is_upper; cbn in H; lia]).
  destruct (C15_refuted U R a (str "addrx") (str "x") K V eq_refl (or_introl eq_refl)) as (s & Es & N).
  destruct (C120_own U R a K NP) as (t & E & Tx & _). exists s, t. split. { unfold simple_decode. rewrite N. cbn [bind]. destruct a; try (elim An; reflexivity); rewrite E; reflexivity. }
  split; [exact Tx |]. intros ->.
  assert (B : byte_string (addr_bytes a)) by apply Tx. destruct (bech32_text_encode _ _ V B) as (s' & E2 & T2 & _). rewrite Es in E2. apply Ok_inj in E2. subst s'.
  pose proof (text_chars _ _ _ Tx) as As. apply (bech32_text_decode s _ _ As) in Tx, T2. rewrite Tx in T2. apply Ok_inj in T2. apply (f_equal fst) in T2. cbn [fst] in T2. clear - T2 An.
  destruct a as [b | e | p | r | y]; try (elim An; reflexivity); cbn [own_prefix] in T2; destruct (NetworkId _ =? 0); discriminate T2.
Qed.
Print Assumptions C120_refuted.
Example C120_example : shelley_ok ex_base /\ announced ex_base <> None.
Proof. split; [apply ex_base_ok | discriminate]. Qed.
(** The program itself *)
Theorem C120_main : forall (U : Unicode) (R : Runtime), simple_decode decode_literal = Ok [str "Enterprise Address:"; decode_literal].
Proof. intros U R. vm_compute. reflexivity. Qed.
Print Assumptions C120_main.
