(** C01, C02, C03, C61, C62, C70, C71, C72: internal/bech32. *)
From Verif.Model Require Import Base Bech32.
From Verif.Spec Require Import Bech32Spec BchSpec.
From Verif.Proofs Require Import Util Bech32Facts Bech32Props BchFacts.

(** An instance of the Unicode tables, for the concrete examples only. *)
#[local] Instance no_unicode : Unicode := {| uni_lower := fun s => s; uni_upper := fun s => s |}.

(** C01. Encode accepts exactly the valid human-readable parts, and Decode inverts it. *)
Theorem C01_roundtrip : forall (U : Unicode) hrp data, byte_string data ->
  (valid_hrp hrp <-> exists s, encode hrp data = Ok s) /\
  (forall s, encode hrp data = Ok s -> decode s = Ok (hrp, data)).
Proof. exact @C01_lemma. Qed.
Print Assumptions C01_roundtrip.

Example C01_example : byte_string [255; 0; 7] /\ valid_hrp (str "ADDR") /\
  encode (str "ADDR") [255; 0; 7] = Ok (str "ADDR1LUQQWNZUFHZ").
Proof.
  split; [| split].
  - intros c [<- | [<- | [<- | []]]]; lia.
  - split; [discriminate |]. split.
    + intros c H. cbn in H. lia.
    + right. intros c H. cbn in H. unfold is_lower. lia.
  - vm_compute. reflexivity.
Qed.

(** C02. Whatever Decode accepts is the encoding of what it returns, up to the case of the whole string.
    (For ASCII strings and for strings equal to their own lower-case form, which covers every address.) *)
Theorem C02_canonical : forall (U : Unicode) s hrp data,
  (ascii_string s \/ to_lower s = s) -> decode s = Ok (hrp, data) ->
  byte_string data /\ single_case s /\
  exists s', encode hrp data = Ok s' /\ map fold_case s' = map fold_case s /\
             (map fold_case s = s -> s' = s).
Proof. exact @C02_lemma. Qed.
Print Assumptions C02_canonical.

(** C02, distinct lower-case strings never decode to the same result. *)
Theorem C02_injective : forall (U : Unicode) s t r,
  (ascii_string s \/ to_lower s = s) -> (ascii_string t \/ to_lower t = t) ->
  map fold_case s = s -> map fold_case t = t ->
  decode s = Ok r -> decode t = Ok r -> s = t.
Proof. exact @C02_inj_lemma. Qed.
Print Assumptions C02_injective.

(** C02, what an accepted string looks like: separator, alphabet, at least six checksum characters. *)
Theorem C02_alphabet : forall (U : Unicode) s hrp data,
  (ascii_string s \/ to_lower s = s) -> decode s = Ok (hrp, data) ->
  valid_hrp hrp /\ exists body, s = hrp ++ 49 :: body /\ (6 <= length body)%nat /\
  forall c, In c body -> data_char c.
Proof. exact @C02_alphabet_lemma. Qed.
Print Assumptions C02_alphabet.

Example C02_example : ascii_string (str "addr1luqqwnzufhz") /\ map fold_case (str "addr1luqqwnzufhz") = str "addr1luqqwnzufhz" /\
  decode (str "addr1luqqwnzufhz") = Ok (str "addr", [255; 0; 7]).
Proof. split; [intros c H; cbn in H; lia | split; vm_compute; reflexivity]. Qed.

(** C02 does not extend to strings with non-ASCII characters: with U+212A (KELVIN SIGN, bytes e2 84 aa),
    whose lower-case form is the ASCII k, in place of a K, Decode accepts. The hypotheses are the two
    facts about strings.ToLower and strings.ToUpper on this string. *)
Theorem C02_non_ascii_refuted : forall (U : Unicode),
  uni_lower kelvin_text = str "a1kqdy2wl0" -> uni_upper kelvin_text = kelvin_text ->
  exists s hrp data, decode s = Ok (hrp, data) /\
    (exists c, In c s /\ ~ data_char c /\ 128 <= c) /\
    forall s', encode hrp data = Ok s' -> map fold_case s' <> map fold_case s.
Proof. exact @C02_refuted_lemma. Qed.
Print Assumptions C02_non_ascii_refuted.
Example C63_example : let U := {| uni_lower := fun s => if list_eq_dec Z.eq_dec s kelvin_text then str "a1kqdy2wl0" else s; uni_upper := fun s => s |} in
  @uni_lower U kelvin_text = str "a1kqdy2wl0" /\ @uni_upper U kelvin_text = kelvin_text.
Proof. vm_compute. auto. Qed.

(** C03. One substituted character of the data part is always detected: with the checksum error when the
    new string does not mix cases, with the mixed-case error otherwise. *)
Theorem C03_one_substitution : forall (U : Unicode) s hrp data i c,
  ascii_string s -> decode s = Ok (hrp, data) ->
  (length hrp < i < length s)%nat -> data_char c -> fold_case c <> fold_case (nth i s 0) ->
  decode (replace_at i c s) = Err EBech32Checksum \/
  (decode (replace_at i c s) = Err EBech32Mixed /\ ~ single_case (replace_at i c s)).
Proof. exact @C03_one_lemma. Qed.
Print Assumptions C03_one_substitution.

Theorem C03_two_substitutions : forall (U : Unicode) s hrp data i c j d,
  ascii_string s -> decode s = Ok (hrp, data) ->
  (length hrp < i)%nat -> (i < j < length s)%nat -> (j - i < 1023)%nat -> data_char c -> data_char d ->
  fold_case c <> fold_case (nth i s 0) -> fold_case d <> fold_case (nth j s 0) ->
  let s' := replace_at j d (replace_at i c s) in
  decode s' = Err EBech32Checksum \/ (decode s' = Err EBech32Mixed /\ ~ single_case s').
Proof. exact @C03_two_lemma. Qed.
Print Assumptions C03_two_substitutions.

Example C03_example :
  decode (str "a12uel5l") = Ok (str "a", []) /\ data_char 113 /\
  fold_case 113 <> fold_case (nth 3 (str "a12uel5l") 0) /\
  decode (replace_at 3 113 (str "a12uel5l")) = Err EBech32Checksum.
Proof. split; [vm_compute; reflexivity |]. split; [left; reflexivity |]. split; [vm_compute; discriminate | vm_compute; reflexivity]. Qed.

(** C61. Decode never panics on ASCII text, nor on text equal to its own lower-case form. *)
Theorem C61_no_panic : forall (U : Unicode) s,
  (ascii_string s \/ to_lower s = s) -> decode s <> Panic.
Proof. exact @C61_lemma. Qed.
Print Assumptions C61_no_panic.

(** C61 fails on other text: "BK1" U+212A "0JFM" makes Decode slice out of range. *)
Theorem C61_non_ascii_refuted : forall (U : Unicode),
  uni_lower kelvin_panic = str "bk1k0jfm" -> uni_upper kelvin_panic = kelvin_panic ->
  exists s, decode s = Panic.
Proof. exact @C61_refuted_lemma. Qed.
Print Assumptions C61_non_ascii_refuted.
Example C61_example : ascii_string (str "BK1K0JFM") /\ decode (str "BK1K0JFM") = Err EBech32Sep /\
  let U := {| uni_lower := fun s => if list_eq_dec Z.eq_dec s kelvin_panic then str "bk1k0jfm" else s; uni_upper := fun s => s |} in
  @uni_lower U kelvin_panic = str "bk1k0jfm" /\ @uni_upper U kelvin_panic = kelvin_panic /\ @decode U kelvin_panic = Panic.
Proof. split; [intros c H; cbn in H; lia |]. split; [vm_compute; reflexivity |]. vm_compute. auto. Qed.

(** C62. Any number of substitutions within six consecutive characters of the data part is detected. *)
Theorem C62_burst : forall (U : Unicode) s hrp data s' i0,
  ascii_string s -> decode s = Ok (hrp, data) ->
  ascii_string s' -> length s = length s' ->
  (forall j, (j <= length hrp)%nat -> fold_case (nth j s' 0) = fold_case (nth j s 0)) ->
  (forall j, (length hrp < j < length s)%nat -> data_char (nth j s' 0)) ->
  (exists j, (j < length s)%nat /\ fold_case (nth j s' 0) <> fold_case (nth j s 0)) ->
  (forall j, (j < length s)%nat -> fold_case (nth j s' 0) <> fold_case (nth j s 0) -> (i0 <= j < i0 + 6)%nat) ->
  decode s' = Err EBech32Checksum \/ (decode s' = Err EBech32Mixed /\ ~ single_case s').
Proof. exact @burst_lemma. Qed.
Print Assumptions C62_burst.

Example C62_example :
  decode (str "a12uel5l") = Ok (str "a", []) /\ decode (str "a1qqqqqq") = Err EBech32Checksum.
Proof. split; vm_compute; reflexivity. Qed.

(** C70. Decode accepts exactly the texts of BIP-173 (of any length), with the prefix and the bytes BIP-173 gives them. *)
Theorem C70_decode_exact : forall (U : Unicode) s hrp data, ascii_string s ->
  (decode s = Ok (hrp, data) <-> bech32_text s hrp data).
Proof. exact @bech32_text_decode. Qed.
Print Assumptions C70_decode_exact.

(** C70, the other direction: Encode produces such a text, in lower case for a lower-case prefix. *)
Theorem C70_encode : forall (U : Unicode) hrp data, valid_hrp hrp -> byte_string data ->
  exists s, encode hrp data = Ok s /\ bech32_text s hrp data /\ (map fold_case hrp = hrp -> map fold_case s = s).
Proof. exact @bech32_text_encode. Qed.
Print Assumptions C70_encode.

(** The first vector of BIP-173 with data. *)
Example C70_example :
  bech32_text (str "abcdef1qpzry9x8gf2tvdw0s3jn54khce6mua7lmqqqxw") (str "abcdef")
    [0; 68; 50; 20; 199; 66; 84; 182; 53; 207; 132; 101; 58; 86; 215; 198; 117; 190; 119; 223].
Proof.
  apply (C70_decode_exact no_unicode); [intros c H; cbn in H; lia | vm_compute; reflexivity].
Qed.

(** C71. Up to three substituted characters of the data part, or one of the prefix and one of the data part, are always
    detected in a text of at most 1023 checksummed symbols. (A prefix character enters the checksum as two symbols, so
    it counts twice; the separator stays the last one of the text.) *)
Theorem C71_three_substitutions : forall (U : Unicode) s s' hrp data,
  ascii_string s -> ascii_string s' -> decode s = Ok (hrp, data) -> length s = length s' ->
  nth (length hrp) s' 0 = 49 -> (forall j, (length hrp < j < length s)%nat -> nth j s' 0 <> 49) ->
  differences s s' <> [] -> (cost (length hrp) (differences s s') <= 3)%nat ->
  (length s + length hrp <= 1023)%nat -> exists e, decode s' = Err e.
Proof.
  intros U s s' hrp data As As' D L Sp No Ne C HL.
  destruct (decode s') as [r | e |] eqn:E; [exfalso | exists e; reflexivity | exfalso].
  - revert E. apply (detected 3 s s' hrp data); auto.
  - revert E. apply C61_no_panic. left. exact As'.
Qed.
Print Assumptions C71_three_substitutions.

Example C71_example : let s := str "addr1luqqwnzufhz" in let s' := str "axdr1luqqwnzufhq" in
  decode s = Ok (str "addr", [255; 0; 7]) /\ differences s s' = [1; 15]%nat /\ cost 4 (differences s s') = 3%nat /\
  decode s' = Err EBech32Checksum.
Proof. vm_compute. auto. Qed.

(** C72. Four substitutions are always detected in a text of at most 89 checksummed symbols, which covers enterprise and
    reward addresses. *)
Theorem C72_four_substitutions_partial : forall (U : Unicode) s s' hrp data,
  ascii_string s -> ascii_string s' -> decode s = Ok (hrp, data) -> length s = length s' ->
  nth (length hrp) s' 0 = 49 -> (forall j, (length hrp < j < length s)%nat -> nth j s' 0 <> 49) ->
  differences s s' <> [] -> (cost (length hrp) (differences s s') <= 4)%nat ->
  (length s + length hrp <= 89)%nat -> exists e, decode s' = Err e.
Proof.
  intros U s s' hrp data As As' D L Sp No Ne C HL.
  destruct (decode s') as [r | e |] eqn:E; [exfalso | exists e; reflexivity | exfalso].
  - revert E. apply (detected 4 s s' hrp data); auto.
  - revert E. apply C61_no_panic. left. exact As'.
Qed.
Print Assumptions C72_four_substitutions_partial.

(** C72 fails for base addresses: two texts of the length of a testnet base address, both accepted, differing in four
    characters of the data part. *)
Theorem C72_base_refuted : exists s s' data data', length s = 108%nat /\ length s' = 108%nat /\
  length (differences s s') = 4%nat /\ (forall j, In j (differences s s') -> (9 < j)%nat) /\ data <> data' /\
  length data = 57%nat /\ length data' = 57%nat /\
  forall U : Unicode, decode s = Ok (str "addr_test", data) /\ decode s' = Ok (str "addr_test", data').
Proof.
  pose (s := str "addr_test1qqe92py4mf3ffrtmjuwjpzu6jwlw0zmr50h8ey67qcehlmty5kcrvg2ds9fkpg32t535l9v6lkgaj5cunufgvz5f7snql2fawd").
  pose (s' := str "addr_test1qqey2py4mf3ffstmjuwjpzu6jwlw0zmr50h8ey67qcehlmty5kcrvg2ds9fkpg32t535l9v6lkgaj5hunufgvz5f7snqz2fawd").
  pose (out := fun t => match @decode no_unicode t with Ok (_, d) => d | _ => [] end).
  pose (d := out s). pose (d' := out s'). vm_compute in d, d'.
  exists s, s', d, d'. split; [reflexivity |]. split; [reflexivity |]. split; [vm_compute; reflexivity |].
  split; [intros j H; vm_compute in H; lia |]. split; [discriminate |]. split; [reflexivity |]. split; [reflexivity |].
  intros U. split; vm_compute; reflexivity.
Qed.
Print Assumptions C72_base_refuted.

Example C72_example : let s := str "stake1u9w862n8jtje5fuc32l20mqqvwaslpveja6paugnnezz99shxsy55" in
  (exists data, decode s = Ok (str "stake", data) /\ length data = 29%nat) /\ (length s + 5 = 64)%nat.
Proof. split; [eexists; split; vm_compute; reflexivity | reflexivity]. Qed.
