(** Address properties C06-C17, C64 from the parsing lemmas. *)
From Verif.Model Require Import Base Bech32 Hex Base58 Cbor Network Address.
From Verif.Spec Require Import Bech32Spec VarNatSpec Cip19 HexSpec AddressSpec.
From Verif.Proofs Require Import Util VarNat Bech32Facts Bech32Props AddressFacts AddressParse HexFacts.

(** ** Bytes are bytes *)
Lemma header_byte t n : 0 <= t < 16 -> 0 <= n < 16 -> is_byte (header t n).
Proof. unfold is_byte, header. lia. Qed.
Lemma script_range b : 0 <= script_bit b <= 1.
Proof. destruct b; cbn; lia. Qed.

Lemma addr_bytes_ok a : shelley_parts_ok a -> 0 <= NetworkId (net_of a) < 16 -> bytes_ok (addr_bytes a).
Proof.
  intros P K.
  destruct a as [[n p s] | [n p] | [n s] | [n p [sl tx ct]] | b]; cbn [shelley_parts_ok net_of addr_bytes ba_net ba_pay ba_stake ea_net ea_pay ra_net ra_stake pa_net pa_pay pa_ptr] in *.
  - destruct P as [P S]. rewrite base_layout_lemma by auto. cbn [ba_net ba_pay ba_stake]. unfold base_layout.
    constructor; [apply header_byte; auto; pose proof (script_range (is_script p)); pose proof (script_range (is_script s)); lia |].
    apply bytes_ok_app. split; apply hash28_ok; [apply P | apply S].
  - rewrite enterprise_layout_lemma by auto. constructor; [apply header_byte; auto; pose proof (script_range (is_script p)); cbn [ea_pay]; lia |].
    apply hash28_ok, P.
  - rewrite reward_layout_lemma by auto. constructor; [apply header_byte; auto; pose proof (script_range (is_script s)); cbn [ra_stake]; lia |].
    apply hash28_ok, P.
  - destruct P as [P (P1 & P2 & P3)]. rewrite pointer_bytes_eq by auto. cbn [pa_net pa_pay pa_ptr Slot TxIndex CertIndex] in *.
    constructor; [apply header_byte; auto; pose proof (script_range (is_script p)); lia |].
    rewrite !bytes_ok_app. repeat split; try apply encode_bytes_ok; auto. apply hash28_ok, P.
  - contradiction.
Qed.

Lemma own_prefix_valid a : ~ is_byron a ->
  valid_hrp (own_prefix a) /\ map fold_case (own_prefix a) = own_prefix a /\
  exists r, own_prefix a = str "addr" ++ r \/ own_prefix a = str "stake" ++ r.
Proof.
  intros N.
  assert (V : forall h, In h [str "addr"; str "addr_test"; str "stake"; str "stake_test"] ->
     valid_hrp h /\ map fold_case h = h /\ exists r, h = str "addr" ++ r \/ h = str "stake" ++ r).
  { intros h H. cbn [In] in H.
    destruct H as [<- | [<- | [<- | [<- | []]]]];
    (split; [split; [discriminate | split; [intros c H; cbn in H; lia | left; intros c H; unfold is_upper; cbn in H; lia]] | split; [reflexivity |]]).
    - exists []. left. reflexivity.
    - exists (str "_test"). left. reflexivity.
    - exists []. right. reflexivity.
    - exists (str "_test"). right. reflexivity. }
  assert (A : forall n, In (addr_prefix n) [str "addr"; str "addr_test"; str "stake"; str "stake_test"]).
  { intros n. unfold addr_prefix. destruct (_ =? _); [right; left | left]; reflexivity. }
  assert (S : forall n, In (stake_prefix n) [str "addr"; str "addr_test"; str "stake"; str "stake_test"]).
  { intros n. unfold stake_prefix. destruct (_ =? _); [right; right; right; left | right; right; left]; reflexivity. }
  apply V. destruct a; cbn [own_prefix net_of]; try apply A; try apply S. exfalso; apply N; exact I.
Qed.

Lemma has_prefix_app p r : has_prefix (p ++ r) p = true.
Proof. induction p; cbn; [destruct r; reflexivity |]. rewrite Z.eqb_refl. exact IHp. Qed.

Section Env.
Context {U : Unicode} {R : Runtime}.

(** Encoding some bytes with one of the four prefixes and reading them back. *)
Lemma text_roundtrip hrp data r : valid_hrp hrp -> map fold_case hrp = hrp -> bytes_ok data ->
  (hrp = str "addr" ++ r \/ hrp = str "stake" ++ r) ->
  exists s body, encode hrp data = Ok s /\ s = hrp ++ 49 :: body /\
    NewAddress s = NewAddressFromBytes data (append_spare (length data)).
Proof.
  intros V F B P. apply byte_string_spec in B.
  destruct (C01_lemma hrp data B) as [E D]. apply E in V as [s Es]. specialize (D s Es). exists s.
  assert (Fs : map fold_case s = s /\ ascii_string s).
  { change fold_case with lower_byte in *. pose proof (encode_accepts _ _ _ Es) as V'.
    apply valid_hrp_spec in V' as (N & H & C). apply byte_string_spec in B.
    destruct (ConvertBits.convert_8_5_ok data B) as [v Ev].
    destruct (encode_spec hrp data v B N H C Ev) as (chk & cs & _ & Gc & _ & T & E').
    rewrite F, bytes_eqb_refl in E'. rewrite Es in E'. injection E' as ->.
    destruct (ConvertBits.convert_8_5_8 _ _ B Ev) as [Gv _].
    destruct (to_chars_ok (v ++ chk) ltac:(apply Forall_app; auto)) as (cs' & T' & _ & _ & A).
    rewrite T in T'. injection T' as <-. split.
    - rewrite map_app. cbn [map]. rewrite F. do 2 f_equal. rewrite <- (map_id cs) at 2. apply map_ext_in.
      rewrite Forall_forall in A. intros c Hc. apply A in Hc. tauto.
    - intros c Hc. apply in_app_or in Hc as [Hc | [<- | Hc]]; [| lia |].
      + rewrite Forall_forall in H. apply H in Hc. lia.
      + rewrite Forall_forall in A. apply A in Hc. lia. }
  destruct (C02_alphabet_lemma s hrp data (or_introl (proj2 Fs)) D) as (_ & body & -> & _).
  exists body. split; auto. split; auto.
  unfold NewAddress.
  replace (has_prefix (hrp ++ 49 :: body) (str "addr") || has_prefix (hrp ++ 49 :: body) (str "stake")) with true.
  2:{ symmetry. apply orb_true_iff. destruct P as [-> | ->]; rewrite <- app_assoc; [left | right]; apply has_prefix_app. }
  rewrite D. reflexivity.
Qed.

Lemma addr_string_text a : shelley_ok a -> ~ is_pointer a ->
  exists s body, addr_string a = Ok s /\ s = own_prefix a ++ 49 :: body /\ NewAddress s = Ok a /\
    encode (own_prefix a) (addr_bytes a) = Ok s.
Proof.
  intros H NP.
  assert (NB : ~ is_byron a) by (destruct a; cbn; auto; destruct H as [[] _]).
  destruct (own_prefix_valid a NB) as (V & F & r & P).
  assert (B : bytes_ok (addr_bytes a)).
  { apply addr_bytes_ok; [apply H |]. apply known_net_id, H. }
  destruct (text_roundtrip _ _ r V F B P) as (s & body & E & Es & N).
  exists s, body. split; [| split; [auto | split; [| auto]]].
  - destruct a; cbn [own_prefix net_of addr_bytes addr_string] in *; try contradiction; unfold addr_prefix, stake_prefix; change (NetworkId TestNet) with 0; try rewrite E; try reflexivity.
    + exfalso. apply NP. exact I.
    + exfalso. apply NB. exact I.
  - rewrite N. apply roundtrip_bytes, H.
Qed.

Lemma C07_lemma p : cred_ok (pa_pay p) -> 0 <= NetworkId (pa_net p) < 16 ->
  addr_string (APointer p) = Ok [] /\ NewAddress [] = Panic.
Proof.
  intros H Hn. split; [| reflexivity]. cbn [addr_string]. unfold btc_bech32_encode.
  rewrite pointer_bytes_eq by auto. cbn [app forallb].
  assert (L : header (4 + script_bit (is_script (pa_pay p))) (NetworkId (pa_net p)) <? 32 = false).
  { unfold header. pose proof (script_range (is_script (pa_pay p))). lia. }
  rewrite L. reflexivity.
Qed.
End Env.

(** ** C09 *)
(** Bytes of a parsed Shelley address, given a main or test network nibble. *)
Lemma networks_id n : 0 <= n <= 1 -> NetworkId (networks n) = n.
Proof. intros. assert (n = 0 \/ n = 1) as [-> | ->] by lia; reflexivity. Qed.

Lemma cred_is_ok b h : hash28 h -> cred_ok (cred b h).
Proof. intros H. split; [destruct b; cbn; auto | exact H]. Qed.
Lemma cred_script b h : is_script (cred b h) = b.
Proof. destruct b; reflexivity. Qed.

Lemma header_div t n : 0 <= n < 16 -> header t n / 16 = t /\ header t n mod 16 = n.
Proof. intros. unfold header. split; symmetry; [apply Z.div_unique with n | apply Z.mod_unique with t]; lia. Qed.

Lemma odd_t t : 0 <= t < 4 -> script_bit (Z.odd t) + 2 * script_bit (Z.odd (t / 2)) = t.
Proof. intros. assert (t = 0 \/ t = 1 \/ t = 2 \/ t = 3) as [-> | [-> | [-> | ->]]] by lia; reflexivity. Qed.

Lemma u64_value_minimal l : item128 l -> minimal128 l -> value128 l < 2 ^ 64 -> VariableNatEncode (u64 (value128 l)) = l.
Proof. intros. apply reencode; auto. Qed.

Lemma parse_exact data spare a : bytes_ok data -> bytes_ok spare -> NewAddressFromBytes data spare = Ok a ->
  nth 0 data 0 mod 16 <= 1 ->
  match a with
  | ABase _ => addr_bytes a = firstn 57 (data ++ spare)
  | AEnterprise _ | AReward _ => addr_bytes a = data
  | APointer _ => addr_bytes a = data <-> canonical_pointer data
  | AByron _ => True
  end.
Proof.
  intros B Bs P Hn. pose proof (parse_accepted data spare a B P) as A.
  inversion A as [t n pay stake post Ht Hnn Lp Ls E | t n pay l1 l2 l3 Ht Hnn Lp I1 I2 I3 E | t n pay Ht Hnn Lp E | t n pay Ht Hnn Lp E | b n Hnn E0 E]; subst a; cbn [addr_bytes].
  - assert (Bd : bytes_ok (data ++ spare)) by (apply bytes_ok_app; auto).
    rewrite E in Bd. inversion Bd; subst. apply bytes_ok_app in H2 as [Bp B2]. apply bytes_ok_app in B2 as [Bst _].
    assert (n <= 1).
    { destruct data as [| h rest]; [discriminate |]. cbn in E. injection E as -> _. cbn in Hn. destruct (header_div t n Hnn). lia. }
    rewrite base_layout_lemma; cbn [ba_net ba_pay ba_stake].
    + unfold base_layout. rewrite !cred_script, networks_id, odd_t by lia. rewrite E.
      replace (header t n :: pay ++ stake ++ post) with ((header t n :: pay ++ stake) ++ post) by (cbn [app]; rewrite app_assoc; reflexivity).
      rewrite firstn_app, firstn_all2 by (cbn [length]; rewrite app_length; lia).
      replace (57 - length (header t n :: pay ++ stake))%nat with 0%nat by (cbn [length]; rewrite app_length; lia).
      cbn [firstn]. rewrite app_nil_r. reflexivity.
    + apply cred_is_ok. split; auto. apply Forall_forall. exact Bp.
    + apply cred_is_ok. split; auto. apply Forall_forall. exact Bst.
    + rewrite networks_id; lia.
  - subst data. inversion B; subst. apply bytes_ok_app in H2 as [Bp _].
    assert (n <= 1) by (cbn in Hn; destruct (header_div t n Hnn); lia).
    rewrite pointer_bytes_eq; cbn [pa_net pa_pay pa_ptr Slot TxIndex CertIndex].
    2:{ apply cred_is_ok. split; auto. apply Forall_forall. exact Bp. }
    2:{ rewrite networks_id; lia. }
    rewrite cred_script, networks_id by lia. cbn [Payload cred].
    replace (header (4 + script_bit (Z.odd t)) n) with (header t n) by (destruct Ht as [-> | ->]; reflexivity).
    assert (S1 : skipn 29 (header t n :: pay ++ l1 ++ l2 ++ l3) = l1 ++ l2 ++ l3).
    { change (skipn 28 (pay ++ l1 ++ l2 ++ l3) = l1 ++ l2 ++ l3). rewrite skipn_app, skipn_all2, Lp by lia. reflexivity. }
    split.
    + intros E. injection E as E. apply app_inv_head in E.
      assert (It : forall l, item128 l -> item128 (VariableNatEncode (u64 (value128 l)))).
      { intros. apply encode_item. pose proof (u64_range (value128 l)). lia. }
      apply item128_prefix in E as [E1 E]; auto. apply item128_prefix in E as [E2 E3]; auto.
      exists l1, l2, l3. split; auto. intros l [-> | [-> | ->]]; split; auto; apply reencode; auto.
    + intros (k1 & k2 & k3 & Ek & Hk). rewrite S1 in Ek.
      apply item128_prefix in Ek as [<- Ek]; auto; [| apply Hk; auto].
      apply item128_prefix in Ek as [<- <-]; auto; [| apply Hk; auto].
      rewrite !u64_value_minimal; auto; apply Hk; auto.
  - subst data. inversion B; subst.
    assert (n <= 1) by (cbn in Hn; destruct (header_div t n Hnn); lia).
    rewrite enterprise_layout_lemma; cbn [ea_net ea_pay].
    + unfold enterprise_layout. rewrite cred_script, networks_id by lia. cbn [Payload cred].
      f_equal. destruct Ht as [-> | ->]; reflexivity.
    + apply cred_is_ok. split; auto. apply Forall_forall. auto.
    + rewrite networks_id; lia.
  - subst data. inversion B; subst.
    assert (n <= 1) by (cbn in Hn; destruct (header_div t n Hnn); lia).
    rewrite reward_layout_lemma; cbn [ra_net ra_stake].
    + unfold reward_layout. rewrite cred_script, networks_id by lia. cbn [Payload cred].
      f_equal. destruct Ht as [-> | ->]; reflexivity.
    + apply cred_is_ok. split; auto. apply Forall_forall. auto.
    + rewrite networks_id; lia.
  - exact I.
Qed.

(** ** C14 *)
Lemma parse_network data spare a : bytes_ok data -> NewAddressFromBytes data spare = Ok a -> ~ is_byron a ->
  addr_network a = (if nth 0 data 0 mod 16 =? 1 then MainNet else if nth 0 data 0 mod 16 =? 0 then TestNet else ZeroNet).
Proof.
  intros B P NB. pose proof (parse_accepted data spare a B P) as A.
  inversion A as [t n pay stake post Ht Hnn Lp Ls E | t n pay l1 l2 l3 Ht Hnn Lp I1 I2 I3 E | t n pay Ht Hnn Lp E | t n pay Ht Hnn Lp E | b n Hnn E0 E]; subst a; cbn [addr_network ba_net ea_net ra_net pa_net];
    try (subst data; cbn [nth]; rewrite (proj2 (header_div t n Hnn)); reflexivity).
  - destruct data as [| h rest]; [discriminate |]. cbn in E. injection E as -> _.
    cbn [nth]. rewrite (proj2 (header_div t n Hnn)). reflexivity.
  - exfalso. apply NB. exact I.
Qed.

Lemma firstn_repeat' {A} (x : A) : forall n m, firstn n (repeat x m) = repeat x (Nat.min n m).
Proof. induction n as [| n IH]; intros [| m]; cbn [firstn repeat Nat.min]; auto. f_equal. apply IH. Qed.

(** ** C04 *)
Lemma C04_lemma a : shelley_parts_ok a -> 0 <= NetworkId (net_of a) < 16 -> cip19 a (addr_bytes a).
Proof.
  intros P K. destruct a; cbn [cip19 addr_bytes shelley_parts_ok net_of] in *.
  - destruct P. apply base_layout_lemma; auto.
  - apply enterprise_layout_lemma; auto.
  - apply reward_layout_lemma; auto.
  - destruct P. apply pointer_layout_lemma; auto.
  - exact P.
Qed.

(** What is accepted has credentials of 28 bytes and indices in the uint64 range. *)
Lemma parse_parts data spare a : bytes_ok data -> bytes_ok spare -> NewAddressFromBytes data spare = Ok a -> ~ is_byron a -> shelley_parts_ok a.
Proof.
  intros B Bs P NB. pose proof (parse_accepted data spare a B P) as A.
  inversion A as [t n pay stake post Ht Hnn Lp Ls E | t n pay l1 l2 l3 Ht Hnn Lp I1 I2 I3 E | t n pay Ht Hnn Lp E | t n pay Ht Hnn Lp E | b n Hnn E0 E]; subst a; cbn [shelley_parts_ok ba_pay ba_stake ea_pay ra_stake pa_pay pa_ptr].
  - assert (Bd : bytes_ok (data ++ spare)) by (apply bytes_ok_app; auto).
    rewrite E in Bd. inversion Bd; subst. apply bytes_ok_app in H2 as [Bp B2]. apply bytes_ok_app in B2 as [Bst _].
    split; apply cred_is_ok; (split; [assumption | apply Forall_forall; assumption]).
  - subst data. inversion B; subst. apply bytes_ok_app in H2 as [Bp _].
    split; [apply cred_is_ok; split; [assumption | apply Forall_forall; assumption] |].
    split; [| split]; cbn [Slot TxIndex CertIndex]; apply u64_range.
  - subst data. inversion B; subst. apply cred_is_ok. split; [assumption | apply Forall_forall; assumption].
  - subst data. inversion B; subst. apply cred_is_ok. split; [assumption | apply Forall_forall; assumption].
  - exact (NB I).
Qed.
(** The network nibble written is 0 or 1. *)
Lemma layout_nibble a : shelley_parts_ok a -> 0 <= NetworkId (net_of a) < 16 -> nth 0 (addr_bytes a) 0 mod 16 = NetworkId (net_of a).
Proof.
  intros P K. pose proof (C04_lemma a P K) as C. destruct a; cbn [cip19 net_of] in *.
  - rewrite C. apply header_div. exact K.
  - rewrite C. apply header_div. exact K.
  - rewrite C. apply header_div. exact K.
  - destruct C as (l1 & l2 & l3 & _ & _ & _ & ->). apply header_div. exact K.
  - contradiction.
Qed.
Lemma parse_iff data spare a : bytes_ok data -> bytes_ok spare -> NewAddressFromBytes data spare = Ok a -> ~ is_byron a ->
  (addr_bytes a = data <-> nth 0 data 0 mod 16 <= 1 /\
    match a with ABase _ => length data = 57%nat | APointer _ => canonical_pointer data | _ => True end).
Proof.
  intros B Bs P NB. pose proof (parse_parts _ _ _ B Bs P NB) as Pp.
  assert (N : 0 <= NetworkId (net_of a) <= 1).
  { pose proof (parse_accepted data spare a B P) as A. inversion A; subst a; cbn [net_of ba_net ea_net ra_net pa_net]; try (exfalso; exact (NB I));
      unfold networks; destruct (_ =? 1); [cbn; lia | | cbn; lia | | cbn; lia | | cbn; lia |]; destruct (_ =? 0); cbn; lia. }
  pose proof (parse_exact data spare a B Bs P) as X. split.
  - intros E. assert (Hn : nth 0 data 0 mod 16 <= 1) by (rewrite <- E, layout_nibble by (assumption || lia); lia).
    split; [exact Hn |]. specialize (X Hn). destruct a as [b | e | r | p | b]; try exact I.
    + rewrite <- E. rewrite (C04_lemma (ABase b) Pp) by lia. unfold base_layout. cbn [length]. rewrite app_length. destruct Pp as [[_ [-> _]] [_ [-> _]]]. reflexivity.
    + apply X. exact E.
  - intros [Hn S]. specialize (X Hn). destruct a as [b | e | r | p | b]; auto; [| apply X; exact S | exfalso; exact (NB I)].
    rewrite X, firstn_app, S, Nat.sub_diag, firstn_all2 by lia. apply app_nil_r.
Qed.

(** ** C10 *)
Lemma C10_bytes_lemma a b : shelley_ok a -> shelley_ok b -> addr_bytes a = addr_bytes b -> a = b.
Proof.
  intros A B E. pose proof (roundtrip_bytes a [] A) as P. rewrite E, (roundtrip_bytes b [] B) in P.
  injection P. auto.
Qed.
Lemma C10_text_lemma {U : Unicode} a b : shelley_ok a -> shelley_ok b -> ~ is_pointer a -> ~ is_pointer b ->
  addr_string a = addr_string b -> a = b.
Proof.
  intros A B Na Nb E.
  destruct (@addr_string_text U go117 a A Na) as (s & _ & Ea & _ & Pa & _).
  destruct (@addr_string_text U go117 b B Nb) as (t & _ & Eb & _ & Pb & _).
  assert (s = t) as -> by congruence. congruence.
Qed.

(** ** C13 *)
Lemma C13_lemma {R : Runtime} s :
  (forall b, bytes_ok b -> map hex_fold s = hex_of b -> NewAddressFromHex s = NewAddressFromBytes b (hex_spare s)) /\
  ((forall b, bytes_ok b -> map hex_fold s <> hex_of b) -> exists e, NewAddressFromHex s = Err e).
Proof.
  unfold NewAddressFromHex. split.
  - intros b B E. replace (hex_decode s) with (Ok b) by (symmetry; apply hex_decode_iff; auto). reflexivity.
  - intros N. destruct (hex_decode s) as [b | e |] eqn:D.
    + apply hex_decode_iff in D as [B E]. exfalso. eapply N; eauto.
    + exists e. reflexivity.
    + exfalso. eapply hex_decode_err; eauto.
Qed.

(** The spare bytes matter only for base headers with fewer than 57 bytes. *)
Lemma spare_irrelevant data spare spare' : bytes_ok data ->
  (nth 0 data 0 / 16 < 4 -> (57 <= length data)%nat) ->
  NewAddressFromBytes data spare = NewAddressFromBytes data spare'.
Proof.
  intros B H. destruct data as [| h rest]; [reflexivity |]. cbn [nth] in H.
  inversion B; subst. destruct (hdr_split h H2) as (Eh & Ht & Hn).
  set (t := h / 16) in *. set (n := h mod 16) in *.
  assert (RC : forall bit pos, (pos + 28 <= length (h :: rest))%nat ->
     readAddrCred (h :: rest) spare h bit pos = readAddrCred (h :: rest) spare' h bit pos).
  { intros bit pos L. unfold readAddrCred, slice. rewrite !app_length.
    replace (pos + 28 <=? length (h :: rest) + length spare)%nat with true by (symmetry; apply Nat.leb_le; lia).
    replace (pos + 28 <=? length (h :: rest) + length spare')%nat with true by (symmetry; apply Nat.leb_le; lia).
    replace (firstn (pos + 28 - pos) (skipn pos ((h :: rest) ++ spare))) with (firstn (pos + 28 - pos) (skipn pos ((h :: rest) ++ spare'))); [reflexivity |].
    replace (pos + 28 - pos)%nat with 28%nat by lia. rewrite !skipn_app, !firstn_app. rewrite skipn_length.
    replace (28 - (length (h :: rest) - pos))%nat with 0%nat by lia. reflexivity. }
  unfold NewAddressFromBytes, index. cbn [nth_error bind]. hdr t n. rewrite <- Eh in *. rewrite N, T.
  destruct (t =? 8); [reflexivity |].
  destruct ((t =? 0) || (t =? 1) || (t =? 2) || (t =? 3)) eqn:K.
  { specialize (H ltac:(lia)). rewrite !RC by lia. reflexivity. }
  destruct ((t =? 4) || (t =? 5)).
  { destruct (Nat.ltb_spec (length (h :: rest)) 32); [reflexivity |]. rewrite !RC by lia. reflexivity. }
  destruct ((t =? 6) || (t =? 7)).
  { destruct (Nat.ltb_spec (length (h :: rest)) 29); [reflexivity |].
    destruct (29 <? length (h :: rest))%nat; [reflexivity |]. rewrite !RC by lia. reflexivity. }
  destruct ((t =? 14) || (t =? 15)); [| reflexivity].
  destruct (Nat.ltb_spec (length (h :: rest)) 29); [reflexivity |].
  destruct (29 <? length (h :: rest))%nat; [reflexivity |]. rewrite !RC by lia. reflexivity.
Qed.

(** ** C64: base addresses cut short *)
Lemma parse_short data spare pay stake t n post : 0 <= t < 4 -> 0 <= n < 16 -> length pay = 28%nat -> length stake = 28%nat ->
  data <> [] -> data ++ spare = header t n :: pay ++ stake ++ post ->
  exists a, NewAddressFromBytes data spare = Ok a /\ is_base a.
Proof. intros. eexists. split; [apply (parse_base t n pay stake post); auto | exact I]. Qed.

Lemma base_header_small data spare : bytes_ok data -> data <> [] -> nth 0 data 0 / 16 < 4 ->
  (57 <= length data + length spare)%nat ->
  exists a, NewAddressFromBytes data spare = Ok a /\ is_base a.
Proof.
  intros B N K L. destruct data as [| h rest]; [contradiction |].
  inversion B; subst. destruct (hdr_split h H1) as (Eh & Ht & Hn). cbn [nth] in K.
  eapply (parse_short _ _ (firstn 28 (rest ++ spare)) (firstn 28 (skipn 28 (rest ++ spare))) (h / 16) (h mod 16) (skipn 28 (skipn 28 (rest ++ spare)))); auto; try lia.
  - rewrite firstn_length, app_length. cbn [length] in L. lia.
  - rewrite firstn_length, skipn_length, app_length. cbn [length] in L. lia.
  - rewrite <- Eh, !firstn_skipn. reflexivity.
Qed.

Lemma append_cap_64 k : (33 <= k <= 56)%nat -> append_cap k = 64%nat.
Proof.
  intros H. do 33 (destruct k as [| k]; [lia |]). do 24 (destruct k as [| k]; [reflexivity |]). lia.
Qed.

(** Cutting the bytes of a base address and printing them: accepted, with zeros for the missing bytes. *)
Lemma C64_text_lemma {U : Unicode} a k : shelley_ok a -> is_base a -> (33 <= k <= 56)%nat ->
  exists s b, encode (own_prefix a) (firstn k (addr_bytes a)) = Ok s /\
    @NewAddress U go117 s = Ok b /\ is_base b /\ shelley_ok b /\
    addr_bytes b = firstn k (addr_bytes a) ++ repeat 0 (57 - k).
Proof.
  intros H Hb Hk. assert (NB : ~ is_byron a) by (destruct a; cbn in *; tauto).
  destruct (own_prefix_valid a NB) as (V & F & r & P).
  assert (B : bytes_ok (addr_bytes a)) by (apply addr_bytes_ok; [apply H | apply known_net_id, H]).
  assert (Bk : bytes_ok (firstn k (addr_bytes a))) by (apply Forall_firstn'; auto).
  assert (Len : length (addr_bytes a) = 57%nat).
  { pose proof (C04_lemma a (proj1 H) ltac:(apply known_net_id, H)) as C. destruct a; try contradiction.
    cbn [cip19] in C. rewrite C. unfold base_layout. cbn [length]. rewrite app_length.
    destruct H as [[[_ [-> _]] [_ [-> _]]] _]. reflexivity. }
  destruct (@text_roundtrip U go117 _ _ r V F Bk P) as (s & body & Es & _ & N).
  assert (Lk : length (firstn k (addr_bytes a)) = k) by (rewrite firstn_length; lia).
  assert (HN : nth 0 (firstn k (addr_bytes a)) 0 = nth 0 (addr_bytes a) 0).
  { destruct k; [lia |]. destruct (addr_bytes a); reflexivity. }
  assert (HH : nth 0 (addr_bytes a) 0 / 16 < 4 /\ nth 0 (addr_bytes a) 0 mod 16 <= 1).
  { pose proof (C04_lemma a (proj1 H) ltac:(apply known_net_id, H)) as C. destruct a as [b | | | |]; try contradiction.
    cbn [cip19] in C. rewrite C. unfold base_layout. cbn [nth].
    destruct (known_net_id _ (proj2 H)) as [R _]. cbn [net_of] in R.
    destruct (header_div (script_bit (is_script (ba_pay b)) + 2 * script_bit (is_script (ba_stake b))) (NetworkId (ba_net b)) R) as [-> ->].
    split; [destruct (is_script (ba_pay b)), (is_script (ba_stake b)); cbn; lia |].
    destruct (proj2 H) as [E | E]; cbn [net_of] in E; rewrite E; cbn; lia. }
  rewrite Lk in N. cbn [append_spare go117] in N. rewrite append_cap_64 in N by auto.
  destruct (base_header_small (firstn k (addr_bytes a)) (repeat 0 (64 - k)) Bk) as (b & Eb & Ib).
  - intros E. rewrite E in Lk. cbn in Lk. lia.
  - rewrite HN. apply HH.
  - rewrite Lk, repeat_length. lia.
  - exists s, b. split; auto. split; [congruence |]. split; auto.
    pose proof (parse_accepted _ _ _ Bk Eb) as A.
    assert (Bz : bytes_ok (repeat 0 (64 - k))) by (apply Forall_forall; intros x Hx; apply repeat_spec in Hx; subst; unfold is_byte; lia).
    pose proof (parse_exact _ _ _ Bk Bz Eb ltac:(rewrite HN; apply HH)) as X.
    destruct b as [bb | | | |]; try contradiction. split.
    + inversion A as [t n pay stake post Ht Hnn Lp Ls E | | | |]; subst bb.
      assert (Ball : bytes_ok (firstn k (addr_bytes a) ++ repeat 0 (64 - k))) by (apply bytes_ok_app; auto).
      rewrite E in Ball. inversion Ball; subst. apply bytes_ok_app in H3 as [Bp B2]. apply bytes_ok_app in B2 as [Bs _].
      split; [split; apply cred_is_ok; split; auto; apply Forall_forall; auto |].
      cbn [net_of ba_net]. 
      assert (n <= 1).
      { destruct (firstn k (addr_bytes a)) eqn:Q; [cbn in Lk; lia |]. cbn in E. injection E as -> _.
        cbn in HN. rewrite <- HN in HH. rewrite (proj2 (header_div t n Hnn)) in HH. lia. }
      assert (n = 0 \/ n = 1) as [-> | ->] by lia; [right | left]; reflexivity.
    + rewrite X. rewrite firstn_app, Lk, firstn_all2 by lia. f_equal.
      rewrite firstn_repeat'. f_equal. lia.
Qed.

Lemma C64_hex_lemma a k s : shelley_ok a -> is_base a -> (25 <= k <= 56)%nat ->
  map hex_fold s = hex_of (firstn k (addr_bytes a)) ->
  exists b, @NewAddressFromHex go117 s = Ok b /\ is_base b.
Proof.
  intros H Hb Hk E.
  assert (B : bytes_ok (addr_bytes a)) by (apply addr_bytes_ok; [apply H | apply known_net_id, H]).
  assert (Bk : bytes_ok (firstn k (addr_bytes a))) by (apply Forall_firstn'; auto).
  assert (Len : length (addr_bytes a) = 57%nat).
  { pose proof (C04_lemma a (proj1 H) ltac:(apply known_net_id, H)) as C. destruct a; try contradiction.
    cbn [cip19] in C. rewrite C. unfold base_layout. cbn [length]. rewrite app_length.
    destruct H as [[[_ [-> _]] [_ [-> _]]] _]. reflexivity. }
  assert (Lk : length (firstn k (addr_bytes a)) = k) by (rewrite firstn_length; lia).
  rewrite (proj1 (@C13_lemma go117 s) _ Bk E).
  apply base_header_small; auto.
  - intros Z. rewrite Z in Lk. cbn in Lk. lia.
  - replace (nth 0 (firstn k (addr_bytes a)) 0) with (nth 0 (addr_bytes a) 0) by (destruct k; [lia |]; destruct (addr_bytes a); reflexivity).
    pose proof (C04_lemma a (proj1 H) ltac:(apply known_net_id, H)) as C. destruct a as [b | | | |]; try contradiction.
    cbn [cip19] in C. rewrite C. unfold base_layout. cbn [nth].
    destruct (known_net_id _ (proj2 H)) as [R _]. cbn [net_of] in R.
    destruct (header_div (script_bit (is_script (ba_pay b)) + 2 * script_bit (is_script (ba_stake b))) (NetworkId (ba_net b)) R) as [-> _].
    destruct (is_script (ba_pay b)), (is_script (ba_stake b)); cbn; lia.
  - assert (Ls : length s = (2 * k)%nat).
    { rewrite <- (map_length hex_fold), E, hex_of_length, Lk. reflexivity. }
    cbn [hex_spare go117]. rewrite Lk, app_length, skipn_length, repeat_length, Ls.
    replace (Nat.div (2 * k) 2) with k by (symmetry; rewrite Nat.mul_comm; apply Nat.div_mul; lia).
    assert (Rs : (64 <= round_size (2 * k))%nat).
    { clear - Hk. do 25 (destruct k as [| k]; [lia |]). do 32 (destruct k as [| k]; [vm_compute; lia |]). lia. }
    lia.
Qed.

(** ** C15 *)
Lemma C15_lemma {U : Unicode} {R : Runtime} a hrp r : shelley_ok a -> valid_hrp hrp -> map fold_case hrp = hrp ->
  (hrp = str "addr" ++ r \/ hrp = str "stake" ++ r) ->
  exists s, encode hrp (addr_bytes a) = Ok s /\ NewAddress s = Ok a.
Proof.
  intros H V F P. destruct (text_roundtrip hrp (addr_bytes a) r V F) as (s & body & E & _ & N); auto.
  - apply addr_bytes_ok; [apply H | apply known_net_id, H].
  - exists s. split; auto. rewrite N. apply roundtrip_bytes, H.
Qed.

(** ** C16 *)
Lemma C16_lemma b : cred_ok (ba_pay b) -> cred_ok (ba_stake b) -> 0 <= NetworkId (ba_net b) < 16 ->
  let l := addr_bytes (ABase b) in
  length l = 57%nat /\
  addr_bytes (AEnterprise (ToEnterprise b)) = header (6 + script_bit (is_script (ba_pay b))) (NetworkId (ba_net b)) :: firstn 28 (skipn 1 l) /\
  addr_bytes (AReward (ToReward b)) = header (14 + script_bit (is_script (ba_stake b))) (NetworkId (ba_net b)) :: firstn 28 (skipn 29 l).
Proof.
  intros P S N l. unfold l. cbn [addr_bytes]. rewrite base_layout_lemma by auto.
  rewrite enterprise_layout_lemma, reward_layout_lemma by auto. unfold base_layout, enterprise_layout, reward_layout, ToEnterprise, ToReward.
  cbn [ea_net ea_pay ra_net ra_stake]. destruct P as [_ [Lp _]], S as [_ [Ls _]].
  set (h := header (_ + _) _) at 1. split; [| split].
  - cbn [length]. rewrite app_length, Lp, Ls. reflexivity.
  - cbn [skipn]. rewrite firstn_app, Lp, Nat.sub_diag, firstn_all2 by lia. cbn [firstn]. rewrite app_nil_r. reflexivity.
  - match goal with |- _ = _ :: firstn 28 (skipn 29 (?x :: ?y)) => change (skipn 29 (x :: y)) with (skipn 28 y) end.
    rewrite skipn_app, Lp, Nat.sub_diag, skipn_all2 by lia. cbn [skipn app]. rewrite firstn_all2 by lia. reflexivity.
Qed.

(** Accepted Shelley addresses on a named network are well formed. *)
Lemma accepted_ok data spare a : bytes_ok data -> bytes_ok spare -> NewAddressFromBytes data spare = Ok a ->
  nth 0 data 0 mod 16 <= 1 -> ~ is_byron a -> shelley_ok a.
Proof.
  intros B Bs P Hn NB. pose proof (parse_accepted data spare a B P) as A.
  assert (KN : forall t n, 0 <= n < 16 -> nth 0 data 0 = header t n -> known_net (networks n)).
  { intros t n R E. rewrite E, (proj2 (header_div t n R)) in Hn.
    assert (n = 0 \/ n = 1) as [-> | ->] by lia; [right | left]; reflexivity. }
  inversion A as [t n pay stake post Ht Hnn Lp Ls E | t n pay l1 l2 l3 Ht Hnn Lp I1 I2 I3 E | t n pay Ht Hnn Lp E | t n pay Ht Hnn Lp E | b n Hnn E0 E]; subst a.
  - assert (Bd : bytes_ok (data ++ spare)) by (apply bytes_ok_app; auto).
    rewrite E in Bd. inversion Bd; subst. apply bytes_ok_app in H2 as [Bp B2]. apply bytes_ok_app in B2 as [Bst _].
    split; [split; apply cred_is_ok; split; auto; apply Forall_forall; auto |].
    apply (KN t); auto. destruct data; [discriminate |]. cbn in E. injection E as -> _. reflexivity.
  - subst data. inversion B; subst. apply bytes_ok_app in H2 as [Bp _].
    split; [split; [apply cred_is_ok; split; auto; apply Forall_forall; auto |] | apply (KN t); auto].
    cbn [pa_ptr]. split; [| split]; apply u64_range.
  - subst data. inversion B; subst. split; [apply cred_is_ok; split; auto; apply Forall_forall; auto | apply (KN t); auto].
  - subst data. inversion B; subst. split; [apply cred_is_ok; split; auto; apply Forall_forall; auto | apply (KN t); auto].
  - exfalso. apply NB. exact I.
Qed.

Lemma C14_text_lemma {U : Unicode} data spare a : bytes_ok data -> bytes_ok spare ->
  NewAddressFromBytes data spare = Ok a -> nth 0 data 0 mod 16 <= 1 -> ~ is_byron a -> ~ is_pointer a ->
  exists body, addr_string a = Ok (own_prefix a ++ 49 :: body).
Proof.
  intros B Bs P Hn NB NP. pose proof (accepted_ok _ _ _ B Bs P Hn NB) as H.
  destruct (@addr_string_text U go117 a H NP) as (s & body & E & -> & _). exists body. exact E.
Qed.

(** ** C12 *)
Lemma C12_lemma raw : bytes_ok raw ->
  ((exists e, VariableNatDecode raw = Err e) <-> forall b, In b raw -> 128 <= b) /\
  VariableNatDecode raw <> Panic /\
  forall v n, VariableNatDecode raw = Ok (v, n) ->
    exists l r, raw = l ++ r /\ item128 l /\ n = Z.of_nat (length l) /\ v = value128 l mod 2 ^ 64 /\
      (VariableNatEncode v = l <-> minimal128 l /\ value128 l < 2 ^ 64).
Proof.
  intros B. destruct (decode_spec raw B) as [[E H] | (l & r & -> & I & E)]; rewrite E.
  - split; [split; eauto | split; [discriminate | intros; discriminate]].
  - split; [| split; [discriminate |]].
    + split; [intros [e Q]; discriminate | intros Q; exfalso; eapply item128_not_err; eauto].
    + intros v n Q. assert (v = u64 (value128 l) /\ n = zlen l) as [-> ->] by (split; congruence).
      exists l, r. split; [reflexivity |]. split; [exact I |]. split; [reflexivity |]. split; [reflexivity |].
      apply reencode. exact I.
Qed.

Lemma minimal_shortest n l : uint64 n -> item128 l -> value128 l = n -> (length (VariableNatEncode n) <= length l)%nat.
Proof.
  intros H I V. destruct (encode_item n H) as (I' & V' & M' & _). apply minimal_length; auto. congruence.
Qed.
