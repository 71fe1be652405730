(** C61, C63, C15, C87 for all byte strings: texts with characters outside ASCII, under Unicode's case mappings. *)
From Verif.Model Require Import Base Utf8 Bech32 Strings Hex Base58 Cbor Network Address.
From Verif.Spec Require Import Bech32Spec BchSpec Utf8Spec CaseSpec Cip19 AddressSpec CborSpec ByronSpec Base58Spec.
From Verif.Proofs Require Import Util ConvertBits Polymod Utf8Facts Bech32Facts Bech32Props BchFacts AddressFacts AddressParse AddressProps Base58Facts CaseFacts.
From Verif.Props Require Import Text ShelleyExact.
Open Scope Z_scope.

Lemma fold_char_range c : data_char c -> 0 <= c < 128 /\ c <> 49.
Proof.
  intros H. unfold data_char in H. assert (X : forall x, In x alphabet -> 0 <= x < 128 /\ x <> 49) by (intros x I; cbn in I; repeat (destruct I as [<- | I]; [lia |]); contradiction).
  specialize (X _ H). unfold fold_case in X. destruct ((65 <=? c) && (c <=? 90)) eqn:E; lia.
Qed.
Lemma text_chars s hrp data : bech32_text s hrp data -> ascii_string s.
Proof.
  intros (Vh & _ & _ & _ & groups & check & Sg & _ & Sk & _ & _ & E). intros c Hc. apply (in_map fold_case) in Hc. rewrite E in Hc.
  assert (X : fold_case c < 128); [| unfold fold_case in X; destruct ((65 <=? c) && (c <=? 90)) eqn:Q; lia].
  apply in_app_or in Hc as [Hc | [<- | Hc]]; [| lia |].
  - apply in_map_iff in Hc as (h & <- & Hh). destruct Vh as (_ & Vh & _). specialize (Vh h Hh). unfold fold_case. destruct ((65 <=? h) && (h <=? 90)) eqn:Q; lia.
  - apply in_map_iff in Hc as (d & <- & Hd). assert (0 <= d < 32) by (apply in_app_or in Hd as [Hd | Hd]; auto). unfold symbol_char.
    assert (Y : forall x, In x alphabet -> x < 128) by (intros x I; cbn in I; repeat (destruct I as [<- | I]; [lia |]); contradiction). apply Y. apply nth_In. cbn. lia.
Qed.
Lemma kelvin_length s t : kelvin s t -> (length t <= length s)%nat. Proof. induction 1; cbn [length]; lia. Qed.
Lemma from_chars_data b w : from_chars (map lower_byte b) = Ok w -> forall c, In c b -> data_char c.
Proof.
  intros W c Hc. apply data_char_spec. apply (in_map lower_byte) in Hc. apply (In_nth _ _ 0) in Hc as (k & Hk & <-). exists (nth k w 0). apply from_chars_nth; auto.
Qed.
Lemma hrp_ok a : hrp_chars_ok a = true <-> forall c, In c a -> 33 <= c <= 126.
Proof. rewrite hrp_chars_Forall. apply Forall_forall. Qed.
(** Decode on the ASCII text with letters K. *)
Lemma decode_plain (U : Unicode) a b : a <> [] -> hrp_chars_ok a = true -> Forall (fun c => 0 <= c < 128) b -> ~ In 49 b -> no_lower (a ++ b) ->
  decode (a ++ 49 :: b) = if (length b <? 6)%nat then Err EBech32Sep else core a (map lower_byte b).
Proof.
  intros A HA F N NL. assert (As : ascii_only (a ++ 49 :: b) = true).
  { apply ascii_only_Forall. apply Forall_app. split; [apply hrp_chars_Forall in HA; eapply Forall_impl; [| exact HA]; cbn; lia |]. constructor; [lia |]. eapply Forall_impl; [| exact F]. cbn. lia. }
  apply decode_core; [exact N | right | | exact A | exact HA].
  - rewrite (to_upper_ascii _ As). apply fixed_map. apply Forall_forall. intros c Hc. apply no_lower_upper. apply in_app_or in Hc as [Hc | [<- | Hc]]; [apply NL; apply in_or_app; auto | unfold is_lower; lia | apply NL; apply in_or_app; auto].
  - exists (map lower_byte a). split; [apply map_length |]. rewrite (to_lower_ascii _ As), map_app. reflexivity.
Qed.

(** C63. Full statement: what Decode accepts is the encoding of what it returns. Exactly, for every byte string: it is such a text, or
    an upper-case one with some letters K of the data part replaced by the KELVIN SIGN. *)
Theorem C63_exact : forall lo up s hrp data, case_tables lo up -> byte_string s ->
  (@decode (case_functions lo up) s = Ok (hrp, data) <->
   exists chars plain, s = hrp ++ 49 :: chars /\ kelvin chars plain /\ bech32_text (hrp ++ 49 :: plain) hrp data /\ (chars = plain \/ no_lower (hrp ++ plain))).
Proof.
  intros lo up s hrp data T B. change (case_functions lo up) with (CF lo up). set (U := CF lo up). apply byte_string_spec in B. split.
  - intros D. destruct (ascii_only s) eqn:As.
    + assert (A : ascii_string s) by (apply ascii_string_spec; exact As). destruct (C02_alphabet_lemma s hrp data (or_introl A) D) as (_ & body & E & _). apply (bech32_text_decode s hrp data A) in D.
      exists body, body. split; [exact E |]. split; [clear; induction body; constructor; assumption |]. split; [rewrite <- E; exact D | left; reflexivity].
    + destruct (decode_other lo up T s B As) as (a & b & b' & E & A & HA & K & NE & F & N & NL & Lb & DC & w & W); [intros e X; unfold U in D; rewrite X in D; discriminate |].
      unfold U in D. rewrite DC in D. assert (EA : a = hrp /\ (6 <= length b')%nat).
      { unfold core in D. rewrite W in D. cbn [bind] in D. destruct (negb _); [discriminate |]. destruct (Nat.ltb_spec (length w) 6) as [Q | Q]; [discriminate |]. apply bind_ok in D as (p & _ & D). injection D as <- _.
        split; [reflexivity |]. apply from_chars_inv in W as (_ & Lw & _). rewrite map_length in Lw. lia. }
      destruct EA as [-> L6]. exists b, b'. split; [exact E |]. split; [exact K |]. split; [| right; exact NL].
      apply (@bech32_text_decode U). { apply ascii_string_spec. apply ascii_only_Forall. apply Forall_app. split; [apply hrp_chars_Forall in HA; eapply Forall_impl; [| exact HA]; cbn; lia |]. constructor; [lia |]. eapply Forall_impl; [| exact F]. cbn. lia. }
      rewrite decode_plain; try assumption. replace (length b' <? 6)%nat with false by (symmetry; apply Nat.ltb_ge; exact L6). exact D.
  - intros (chars & plain & E & K & X & C). pose proof (text_chars _ _ _ X) as A. pose proof X as X'. apply (@bech32_text_decode U _ _ _ A) in X. subst s. destruct (list_eq_dec Z.eq_dec chars plain) as [-> | NE]; [exact X |]. destruct C as [C | NL]; [contradiction |].
    destruct (C02_alphabet_lemma _ hrp data (or_introl A) X) as (Vh & body & E & L6 & DCh). apply app_inv_head in E. injection E as <-.
    assert (F : Forall (fun c => 0 <= c < 128) plain) by (apply Forall_forall; intros c Hc; apply fold_char_range; auto).
    assert (N : ~ In 49 plain) by (intros I; apply DCh in I; apply fold_char_range in I; lia).
    destruct Vh as (Nh & Rh & _). apply hrp_ok in Rh. unfold U. rewrite (decode_kelvin lo up T hrp chars plain); try assumption. pose proof (kelvin_length _ _ K). replace (length chars <? 6)%nat with false by (symmetry; apply Nat.ltb_ge; lia).
    rewrite (decode_plain U hrp plain) in X; try assumption. replace (length plain <? 6)%nat with false in X by (symmetry; apply Nat.ltb_ge; lia). exact X.
Qed.
Print Assumptions C63_exact.

(** C61. Full statement: Decode never panics. Exactly, for every byte string: when KELVIN SIGNs make fewer than six characters with a
    right checksum look like six or more. *)
Theorem C61_exact : forall lo up s, case_tables lo up -> byte_string s ->
  (@decode (case_functions lo up) s = Panic <->
   exists hrp chars plain, s = hrp ++ 49 :: chars /\ kelvin chars plain /\ hrp <> [] /\ (forall c, In c hrp -> 33 <= c <= 126) /\ no_lower (hrp ++ plain) /\
     (length plain < 6 <= length chars)%nat /\ checksum_holds hrp plain).
Proof.
  intros lo up s T B. change (case_functions lo up) with (CF lo up). set (U := CF lo up). apply byte_string_spec in B.
  assert (VC : forall a w, hrp_chars_ok a = true -> grp 5 w -> (verifyChecksum a w = true <-> residue (1 :: hrp_symbols (map fold_case a) ++ w) = [0; 0; 0; 0; 0; 1])).
  { intros a w HA G. apply hrp_chars_Forall in HA. unfold verifyChecksum. rewrite (hrpExpand_ascii a (hrp_ascii a HA)), Z.eqb_eq. change (map fold_case a) with (map lower_byte a).
    assert (Hl : Forall (fun c => 33 <= c <= 126) (map lower_byte a)) by (apply Forall_map; eapply Forall_impl; [| exact HA]; intros c; apply lower_range).
    rewrite (hrp_symbols_expand _ Hl). symmetry. apply residue_polymod. apply Forall_app. split; [apply expand_grp; exact Hl | exact G]. }
  split.
  - intros D. destruct (ascii_only s) eqn:As; [exfalso; apply (C61_lemma s); [left; apply ascii_string_spec; exact As | exact D] |].
    destruct (decode_other lo up T s B As) as (a & b & b' & E & A & HA & K & NE & F & N & NL & Lb & DC & w & W); [intros e X; unfold U in D; rewrite X in D; discriminate |].
    unfold U in D. rewrite DC in D. unfold core in D. rewrite W in D. cbn [bind] in D. destruct (verifyChecksum a w) eqn:V; [| discriminate]. cbn [negb] in D.
    destruct (Nat.ltb_spec (length w) 6) as [Q | Q]. 2: { exfalso. destruct (convertBits _ 5 8 false) as [p | e |] eqn:CB; [discriminate | discriminate | exact (convert_no_panic _ _ _ _ CB)]. }
    destruct (from_chars_inv _ _ W) as (Gw & Lw & Tc & _). rewrite map_length in Lw.
    exists a, b, b'. split; [exact E |]. split; [exact K |]. split; [exact A |]. split; [apply hrp_ok; exact HA |]. split; [exact NL |]. split; [lia |].
    exists w. split; [apply symbols_grp; exact Gw |]. split; [apply to_chars_map; assumption | apply VC; assumption].
  - intros (hrp & chars & plain & -> & K & A & HA & NL & L & values & Sv & Ev & R). apply hrp_ok in HA. apply symbols_grp in Sv. change (map fold_case plain) with (map lower_byte plain) in Ev.
    pose proof (from_chars_map values Sv) as W. rewrite <- Ev in W. pose proof (from_chars_data plain values W) as DCh.
    assert (F : Forall (fun c => 0 <= c < 128) plain) by (apply Forall_forall; intros c Hc; apply fold_char_range; auto).
    assert (N : ~ In 49 plain) by (intros I; apply DCh in I; apply fold_char_range in I; lia).
    assert (NE : chars <> plain) by (intros X; rewrite X in L; lia).
    unfold U. rewrite (decode_kelvin lo up T hrp chars plain); try assumption. replace (length chars <? 6)%nat with false by (symmetry; apply Nat.ltb_ge; lia).
    fold U. unfold core. rewrite W. cbn [bind]. rewrite (proj2 (VC hrp values HA Sv) R). cbn [negb]. destruct (from_chars_inv _ _ W) as (_ & Lw & _). rewrite map_length in Lw.
    replace (length values <? 6)%nat with true by (symmetry; apply Nat.ltb_lt; lia). reflexivity.
Qed.
Print Assumptions C61_exact.

(** *** Addresses *)

(** NewAddress hands Decode only texts starting with a lower-case letter, which are never upper-case ones. *)
Lemma shelley_decode lo up s : case_tables lo up -> byte_string s -> shelley_text s ->
  (forall hrp b, @decode (case_functions lo up) s = Ok (hrp, b) <-> bech32_text s hrp b) /\ @decode (case_functions lo up) s <> Panic.
Proof.
  intros T B S. assert (Low : forall hrp chars plain, s = hrp ++ 49 :: chars -> hrp <> [] -> ~ no_lower (hrp ++ plain)).
  { intros hrp chars plain E N NL. destruct hrp as [| x hrp]; [congruence |]. assert (X : x = 97 \/ x = 115) by (destruct S as (t & [-> | ->]); injection E; auto).
    apply (NL x); [left; reflexivity | unfold is_lower; lia]. }
  split.
  - intros hrp b. rewrite (C63_exact lo up s hrp b T B). split.
    + intros (chars & plain & E & K & X & C). destruct C as [-> | NL]; [rewrite E; exact X |]. exfalso. apply (Low hrp chars plain E); [exact (proj1 (proj1 X)) | exact NL].
    + intros X. pose proof (text_chars _ _ _ X) as A. pose proof X as D. apply (@bech32_text_decode (case_functions lo up) _ _ _ A) in D. destruct (C02_alphabet_lemma s hrp b (or_introl A) D) as (_ & body & E & _).
      exists body, body. split; [exact E |]. split; [clear; induction body; constructor; assumption |]. split; [rewrite <- E; exact X | left; reflexivity].
  - intros P. apply (C61_exact lo up s T B) in P as (hrp & chars & plain & E & _ & N & _ & NL & _). exact (Low hrp chars plain E N NL).
Qed.

Theorem C15_all : forall lo up (R : Runtime) s a, case_tables lo up -> byte_string s -> shelley_text s ->
  (@NewAddress (case_functions lo up) R s = Ok a <-> exists hrp b, bech32_text s hrp b /\ NewAddressFromBytes b (append_spare (length b)) = Ok a).
Proof.
  intros lo up R s a T B S. destruct (shelley_decode lo up s T B S) as [D _]. pose proof S as S'. apply shelley_text_iff in S'. unfold NewAddress. rewrite S'. split.
  - intros P. apply bind_ok in P as ([hrp b] & E & P). apply D in E. exists hrp, b. split; assumption.
  - intros (hrp & b & E & P). apply D in E. rewrite E. exact P.
Qed.
Print Assumptions C15_all.

Theorem C87_all : forall lo up (R : Runtime) s, case_tables lo up -> byte_string s -> (@NewAddress (case_functions lo up) R s = Panic <->
  (shelley_text s /\ exists hrp b, bech32_text s hrp b /\ (b = [] \/ short_base b (length b + length (append_spare (length b))))) \/
  (~ shelley_text s /\ (s = [] \/ (exists c, In c s /\ ~ b58_char c) \/ exists b, all_bytes b /\ b58_text s b /\ short_base b (length b)))).
Proof.
  intros lo up R s T B. destruct (ascii_only s) eqn:As; [apply C87_exact; apply ascii_string_spec; exact As |].
  assert (NA : ~ ascii_string s) by (intros A; apply ascii_string_spec in A; congruence).
  pose proof (shelley_text_iff s) as TI. unfold NewAddress. destruct (has_prefix s (str "addr") || has_prefix s (str "stake")) eqn:P.
  - assert (S : shelley_text s) by (apply TI; reflexivity). destruct (shelley_decode lo up s T B S) as [D NP]. split.
    + intros H. exfalso. destruct (@decode (case_functions lo up) s) as [[hrp b] | e |] eqn:E; [| discriminate | congruence]. apply NA. apply (text_chars s hrp b). apply D. reflexivity.
    + intros [(_ & hrp & b & X & _) | [N _]]; [| contradiction]. exfalso. apply NA. exact (text_chars _ _ _ X).
  - assert (S : ~ shelley_text s) by (intros S; apply TI in S; discriminate).
    assert (Bad : exists c, In c s /\ ~ b58_char c).
    { assert (X : exists c, In c s /\ 128 <= c).
      { apply byte_string_spec in B. clear - NA B. induction s as [| x s IH]; [exfalso; apply NA; intros c [] |]. inversion B as [| ? ? Hx B']; subst. destruct (Z_lt_le_dec x 128) as [L | L]; [| exists x; split; [left; reflexivity | exact L]].
        destruct IH as (c & I & Hc); [exact B' | | exists c; split; [right; exact I | exact Hc]]. intros A. apply NA. intros c [<- | I]; [exact L | apply A; exact I]. }
      destruct X as (c & I & Hc). exists c. split; [exact I |]. unfold b58_char. lia. }
    split; [intros _; right; split; [exact S | right; left; exact Bad] |]. intros _. destruct Bad as (c & I & N). rewrite (b58_decode_bad s c I N). reflexivity.
Qed.
Print Assumptions C87_all.

Theorem C64_bech32_all : forall lo up s, case_tables lo up -> byte_string s -> shelley_text s ->
  ((exists a, @NewAddress (case_functions lo up) go117 s = Ok a /\ is_base a) <->
   exists hrp b, bech32_text s hrp b /\ nth 0 b 0 / 16 < 4 /\ (33 <= length b)%nat).
Proof.
  intros lo up s T B S. split.
  - intros (a & P & I). pose proof P as P'. apply (C15_all lo up go117 s a T B S) in P' as (hrp & b & X & _). apply (@C64_bech32_exact (case_functions lo up) s (text_chars _ _ _ X) S). exists a. auto.
  - intros (hrp & b & X & H). apply (@C64_bech32_exact (case_functions lo up) s (text_chars _ _ _ X) S). exists hrp, b. auto.
Qed.
Print Assumptions C64_bech32_all.

(** Tables as above: Unicode's restricted to ASCII and the two characters. *)
Definition ex_lo r := if (65 <=? r) && (r <=? 90) then r + 32 else if r =? 0x212A then 107 else if r =? 0x130 then 105 else r.
Definition ex_up r := if (97 <=? r) && (r <=? 122) then r - 32 else r.
Example tables_example : case_tables ex_lo ex_up.
Proof.
  unfold case_tables, ex_lo, ex_up, scalar. repeat split; intros;
    repeat match goal with |- context [?x =? ?y] => destruct (Z.eqb_spec x y) | H : context [?x =? ?y] |- _ => destruct (Z.eqb_spec x y) end;
    repeat match goal with |- context [?x <=? ?y] => destruct (Z.leb_spec x y) | H : context [?x <=? ?y] |- _ => destruct (Z.leb_spec x y) end; cbn [andb] in *; try lia.
Qed.

(** The two texts, for every such pair of tables. *)
Lemma kelvin_cases lo up rs low : case_tables lo up -> Forall (fun r => 0 <= r < 128 \/ r = 0x212A) rs -> Forall (fun r => ~ is_lower r) rs ->
  low = map (fun r => if r =? 0x212A then 107 else fold_case r) rs -> map_runes lo (enc rs) = low /\ map_runes up (enc rs) = enc rs.
Proof.
  intros (_ & A & _ & K1 & K2) R N ->. assert (S : scalars rs) by (eapply Forall_impl; [| exact R]; cbn; unfold scalar; lia). rewrite !map_runes_enc by exact S. split.
  - assert (E : map lo rs = map (fun r => if r =? 0x212A then 107 else fold_case r) rs).
    { apply map_ext_in. intros r Hr. rewrite Forall_forall in R. specialize (R r Hr). destruct (Z.eqb_spec r 0x212A) as [-> | NE]; [exact K1 |]. rewrite (proj1 (A r ltac:(lia))). reflexivity. }
    rewrite E. apply enc_ascii. apply Forall_map. eapply Forall_impl; [| exact R]. cbn beta. intros r Hr. destruct (Z.eqb_spec r 0x212A); [lia |]. unfold fold_case. destruct ((65 <=? r) && (r <=? 90)) eqn:Q; lia.
  - f_equal. apply fixed_map. rewrite Forall_forall in *. intros r Hr. specialize (R r Hr). specialize (N r Hr). destruct (Z.eq_dec r 0x212A) as [-> | NE]; [exact K2 |]. rewrite (proj2 (A r ltac:(lia))). unfold is_lower in N. destruct ((97 <=? r) && (r <=? 122)) eqn:Q; lia.
Qed.
Theorem C61_refuted : forall lo up, case_tables lo up -> @decode (case_functions lo up) kelvin_panic = Panic.
Proof.
  intros lo up T. change kelvin_panic with (enc [66; 75; 49; 0x212A; 48; 74; 70; 77]).
  destruct (kelvin_cases lo up [66; 75; 49; 0x212A; 48; 74; 70; 77] (str "bk1k0jfm") T) as [E1 E2]; [repeat constructor; lia | repeat constructor; unfold is_lower; lia | reflexivity |].
  rewrite (@kelvin_decode (case_functions lo up) (enc [66; 75; 49; 0x212A; 48; 74; 70; 77]) _ eq_refl E1 E2). vm_compute. reflexivity.
Qed.
Theorem C63_refuted : forall lo up, case_tables lo up -> @decode (case_functions lo up) kelvin_text = Ok (str "A", [176]) /\ ~ bech32_text kelvin_text (str "A") [176].
Proof.
  intros lo up T. split.
  - change kelvin_text with (enc [65; 49; 0x212A; 81; 68; 89; 50; 87; 76; 48]).
    destruct (kelvin_cases lo up [65; 49; 0x212A; 81; 68; 89; 50; 87; 76; 48] (str "a1kqdy2wl0") T) as [E1 E2]; [repeat constructor; lia | repeat constructor; unfold is_lower; lia | reflexivity |].
    rewrite (@kelvin_decode (case_functions lo up) (enc [65; 49; 0x212A; 81; 68; 89; 50; 87; 76; 48]) _ eq_refl E1 E2). vm_compute. reflexivity.
  - intros X. apply text_chars in X. specialize (X 226). assert (In 226 kelvin_text) by (cbn; auto). apply X in H. lia.
Qed.
Print Assumptions C61_refuted.
Print Assumptions C63_refuted.
