(** C13, C14, C15, C17, C64: exactly where the Shelley claims that are false hold and fail. *)
From Verif.Model Require Import Base Bech32 Hex Base58 Cbor Network Address.
From Verif.Spec Require Import Bech32Spec BchSpec Cip19 HexSpec AddressSpec CborSpec.
From Verif.Proofs Require Import Util Bech32Facts Bech32Props BchFacts AddressFacts AddressParse HexFacts CborFacts AddressProps.
From Verif.Props Require Import Shelley Text.

(** ** C64 *)

(** Full statement: a base address is only ever read from 57 bytes. Exactly when one is read: the header announces it and
    57 bytes lie in the backing array, whatever the length of the slice. *)
Theorem C64_exact : forall data spare, bytes_ok data ->
  ((exists a, NewAddressFromBytes data spare = Ok a /\ is_base a) <->
   data <> [] /\ nth 0 data 0 / 16 < 4 /\ (57 <= length data + length spare)%nat).
Proof.
  intros data spare B. split.
  - intros (a & P & I). pose proof (parse_accepted _ _ _ B P) as A.
    inversion A as [t n pay stake post Ht Hnn Lp Ls E | | | |]; subst a; try contradiction.
    assert (data <> []) as Hd by (intros ->; discriminate). split; [exact Hd |].
    assert (L : length (data ++ spare) = (57 + length post)%nat) by (rewrite E; cbn [length]; rewrite !app_length; lia).
    rewrite app_length in L. split; [| lia].
    destruct data as [| h rest]; [congruence |]. cbn in E. injection E as -> _. cbn [nth]. rewrite (proj1 (header_div t n Hnn)). lia.
  - intros (H1 & H2 & H3). apply base_header_small; auto.
Qed.
Print Assumptions C64_exact.

Lemma append_cap_57 k : (57 <= k + length (@append_spare go117 k) <-> 33 <= k)%nat.
Proof.
  cbn [append_spare go117]. rewrite repeat_length. unfold append_cap.
  destruct (Nat.le_gt_cases 33 k) as [H | H].
  - split; [intros _; exact H | intros _]. destruct (Nat.le_gt_cases 57 k) as [K | K]; [lia |].
    do 33 (destruct k as [| k]; [lia |]). do 24 (destruct k as [| k]; [vm_compute; lia |]). lia.
  - split; [| lia]. intros K. exfalso. do 33 (destruct k as [| k]; [vm_compute in K; lia |]). lia.
Qed.
Lemma hex_cap_57 s k : length s = (2 * k)%nat -> (57 <= k + length (@hex_spare go117 s) <-> 25 <= k)%nat.
Proof.
  intros L. cbn [hex_spare go117]. rewrite app_length, skipn_length, repeat_length, L.
  replace (Nat.div (2 * k) 2) with k by (symmetry; rewrite Nat.mul_comm; apply Nat.div_mul; lia).
  destruct (Nat.le_gt_cases 29 k) as [K | K]; [lia |]. clear L.
  destruct (Nat.le_gt_cases 25 k) as [H | H].
  - split; [intros _; exact H | intros _]. do 25 (destruct k as [| k]; [lia |]). do 4 (destruct k as [| k]; [vm_compute; lia |]). lia.
  - split; [| lia]. intros Q. exfalso. do 25 (destruct k as [| k]; [vm_compute in Q; lia |]). lia.
Qed.
(** In Go 1.17: 33 bytes are enough in a bech32 text, 25 in hexadecimal, and base58 does need all 57. *)
Theorem C64_bech32_exact : forall (U : Unicode) s, ascii_string s -> shelley_text s ->
  ((exists a, @NewAddress U go117 s = Ok a /\ is_base a) <->
   exists hrp b, bech32_text s hrp b /\ nth 0 b 0 / 16 < 4 /\ (33 <= length b)%nat).
Proof.
  intros U s As T. apply shelley_text_iff in T. unfold NewAddress. rewrite T. split.
  - intros (a & P & I). apply bind_ok in P as ([hrp b] & D & P). apply (bech32_text_decode s hrp b As) in D.
    exists hrp, b. split; [exact D |]. assert (Bb : bytes_ok b) by (apply byte_string_spec; apply D).
    destruct (proj1 (C64_exact _ _ Bb) (ex_intro _ a (conj P I))) as (_ & H1 & H2). split; [exact H1 | apply append_cap_57; exact H2].
  - intros (hrp & b & D & H1 & H2). assert (Bb : bytes_ok b) by (apply byte_string_spec; apply D).
    apply (bech32_text_decode s hrp b As) in D. rewrite D. cbn [bind]. apply C64_exact; [exact Bb |].
    split; [intros ->; cbn in H2; lia | split; [exact H1 | apply append_cap_57; exact H2]].
Qed.
Print Assumptions C64_bech32_exact.
Theorem C64_hex_exact : forall s,
  ((exists a, @NewAddressFromHex go117 s = Ok a /\ is_base a) <->
   exists b, bytes_ok b /\ map hex_fold s = hex_of b /\ nth 0 b 0 / 16 < 4 /\ (25 <= length b)%nat).
Proof.
  intros s. assert (Ls : forall b, map hex_fold s = hex_of b -> length s = (2 * length b)%nat).
  { intros b E. rewrite <- (map_length hex_fold), E, hex_of_length. reflexivity. }
  unfold NewAddressFromHex. split.
  - intros (a & P & I). apply bind_ok in P as (b & D & P). apply hex_decode_iff in D as [B E]. exists b. split; [exact B |]. split; [exact E |].
    destruct (proj1 (C64_exact _ _ B) (ex_intro _ a (conj P I))) as (_ & H1 & H2). split; [exact H1 |]. apply (hex_cap_57 s); auto.
  - intros (b & B & E & H1 & H2). replace (hex_decode s) with (Ok b) by (symmetry; apply hex_decode_iff; auto). cbn [bind].
    apply C64_exact; [exact B |]. split; [intros ->; cbn in H2; lia | split; [exact H1 | apply hex_cap_57; auto]].
Qed.
Print Assumptions C64_hex_exact.
Example C64_exact_example : bytes_ok (0x11 :: repeat 7 30) /\ nth 0 (0x11 :: repeat 7 30) 0 / 16 < 4 /\ (25 <= length (0x11 :: repeat 7 30) < 33)%nat.
Proof. split; [repeat constructor; cbn; lia |]. split; [reflexivity | cbn; lia]. Qed.

(** ** C13 *)

(** Full statement: the two entry points always agree. Exactly when they do not: the text of a base header that is too short, with
    enough behind it in the decoder's buffer. *)
Theorem C13_exact : forall (R : Runtime) s b, bytes_ok b -> map hex_fold s = hex_of b ->
  (NewAddressFromHex s = NewAddressFromBytes b [] <->
   ~ (b <> [] /\ nth 0 b 0 / 16 < 4 /\ (length b < 57 <= length b + length (hex_spare s))%nat)).
Proof.
  intros R s b B E. rewrite (proj1 (C13_lemma s) b B E). split.
  - intros Q (H1 & H2 & H3 & H4). destruct (proj2 (C64_exact b (hex_spare s) B)) as (a & P & _); auto.
    rewrite P in Q. symmetry in Q. assert (N : NewAddressFromBytes b [] = Panic) by (apply parse_panic; [exact B |]; right; cbn [length]; split; [exact H2 | lia]).
    rewrite N in Q. discriminate.
  - intros N. destruct (list_eq_dec Z.eq_dec b []) as [-> | Nb]; [reflexivity |].
    destruct (Z.lt_ge_cases (nth 0 b 0 / 16) 4) as [L | L]; [| apply spare_irrelevant; [exact B | lia]].
    destruct (Nat.le_gt_cases 57 (length b)) as [K | K]; [apply spare_irrelevant; [exact B | intros _; exact K] |].
    assert (Q : (length b + length (hex_spare s) < 57)%nat) by (destruct (Nat.le_gt_cases 57 (length b + length (hex_spare s))); [exfalso; apply N; auto | assumption]).
    transitivity (@Panic Address); [| symmetry]; apply parse_panic; auto. right. cbn [length]. split; [exact L | lia].
Qed.
Print Assumptions C13_exact.
Theorem C13_go117 : forall s b, bytes_ok b -> map hex_fold s = hex_of b ->
  (@NewAddressFromHex go117 s = NewAddressFromBytes b [] <-> ~ (nth 0 b 0 / 16 < 4 /\ (25 <= length b < 57)%nat)).
Proof.
  intros s b B E. rewrite (C13_exact go117 s b B E).
  assert (Ls : length s = (2 * length b)%nat) by (rewrite <- (map_length hex_fold), E, hex_of_length; reflexivity).
  pose proof (hex_cap_57 s _ Ls) as C. split; intros N (H1 & H2); apply N.
  - split; [intros ->; cbn in H2; lia |]. split; [exact H1 |]. split; [lia | apply C; lia].
  - destruct H2 as (H2 & H3 & H4). split; [exact H2 |]. apply C in H4. lia.
Qed.
Print Assumptions C13_go117.

(** ** C14 *)

(** Full statement: header nibbles other than 0 and 1 are rejected. Exactly: every accepted Shelley address reports the network of
    its nibble, or a network with two zeros, and everything that is not main prints as the test network; pointers print nothing. *)
Theorem C14_exact : forall (U : Unicode) data spare a, bytes_ok data -> bytes_ok spare ->
  NewAddressFromBytes data spare = Ok a -> ~ is_byron a ->
  let n := nth 0 data 0 mod 16 in
  addr_network a = (if n =? 1 then main_network else if n =? 0 then test_network else {| NetworkId := 0; ProtocolMagic := 0 |}) /\
  (is_pointer a -> addr_string a = Ok []) /\
  (~ is_pointer a -> exists body, addr_string a =
     Ok ((if nth 0 data 0 / 16 <? 8 then str "addr" else str "stake") ++ (if n =? 1 then [] else str "_test") ++ 49 :: body)).
Proof.
  intros U data spare a B Bs P NB n. pose proof (parse_network _ _ _ B P NB) as N. fold n in N.
  pose proof (parse_parts _ _ _ B Bs P NB) as Pp.
  assert (Nid : NetworkId (net_of a) = if n =? 1 then 1 else 0).
  { replace (net_of a) with (addr_network a) by (destruct a; try reflexivity; exfalso; exact (NB I)). rewrite N. destruct (n =? 1); [reflexivity |]. destruct (n =? 0); reflexivity. }
  split; [exact N |]. split.
  - intros Ip. destruct a as [| | | p |]; try contradiction. refine (proj1 (@C07_lemma U go117 p (proj1 Pp) _)). cbn [net_of] in Nid. rewrite Nid. destruct (n =? 1); lia.
  - intros NP. destruct (own_prefix_valid a NB) as (V & F & r & Pr).
    assert (Ba : bytes_ok (addr_bytes a)) by (apply addr_bytes_ok; [exact Pp |]; rewrite Nid; destruct (n =? 1); lia).
    destruct (@text_roundtrip U go117 _ _ r V F Ba Pr) as (s & body & E & Es & _). exists body.
    assert (St : addr_string a = Ok s).
    { destruct a; cbn [own_prefix net_of addr_bytes addr_string] in *; try contradiction; unfold addr_prefix, stake_prefix; change (NetworkId TestNet) with 0; try rewrite E; try reflexivity;
        exfalso; first [exact (NP I) | exact (NB I)]. }
    rewrite St, Es. rewrite app_assoc. do 2 f_equal.
    assert (Hk : nth 0 data 0 / 16 <? 8 = match a with AReward _ => false | _ => true end).
    { pose proof (parse_accepted _ _ _ B P) as A. inversion A as [t m pay stake post Ht Hm Lp Ls E1 | t m pay l1 l2 l3 Ht Hm Lp I1 I2 I3 E1 | t m pay Ht Hm Lp E1 | t m pay Ht Hm Lp E1 | b m Hm E0 E1]; subst a.
      1: destruct data as [| h rest]; [discriminate P |]; cbn in E1; injection E1 as -> _.
      2-4: rewrite E1.
      5: exfalso; exact (NB I).
      all: cbn [nth]; rewrite (proj1 (header_div t m Hm)); lia. }
    rewrite Hk. destruct a; cbn [own_prefix net_of] in *; rewrite ?Nid; try (exfalso; exact (NB I)); destruct (n =? 1); reflexivity.
Qed.
Print Assumptions C14_exact.
(** The nibble plays no part in whether a Shelley address is accepted. *)
Theorem C14_no_rejection : forall t n m rest spare, 0 <= t < 16 -> t <> 8 -> 0 <= n < 16 -> 0 <= m < 16 -> bytes_ok rest ->
  (exists a, NewAddressFromBytes (header t n :: rest) spare = Ok a) -> exists a, NewAddressFromBytes (header t m :: rest) spare = Ok a.
Proof.
  intros t n m rest spare Ht H8 Hn Hm B (a & P).
  assert (Bd : bytes_ok (header t n :: rest)) by (constructor; [unfold is_byte, header; lia | exact B]).
  pose proof (parse_accepted _ _ _ Bd P) as A.
  assert (Same : forall t' n', 0 <= n' < 16 -> header t n = header t' n' -> t' = t).
  { intros t' n' Hn' E. pose proof (proj1 (header_div t n Hn)). rewrite E, (proj1 (header_div t' n' Hn')) in H. exact H. }
  inversion A as [t' n' pay stake post Ht' Hn' Lp Ls E | t' n' pay l1 l2 l3 Ht' Hn' Lp I1 I2 I3 E | t' n' pay Ht' Hn' Lp E | t' n' pay Ht' Hn' Lp E | b n' Hn' E0 E]; subst a.
  - cbn [app] in E. injection E as E1 E2. apply (Same _ _ Hn') in E1. subst t'.
    eexists. apply (parse_base t m pay stake post); auto; [discriminate | cbn [app]; rewrite E2; reflexivity].
  - injection E as E1 E2. apply (Same _ _ Hn') in E1. subst t' rest. eexists. apply parse_pointer; auto.
  - injection E as E1 E2. apply (Same _ _ Hn') in E1. subst t' rest. eexists. apply parse_enterprise; auto.
  - injection E as E1 E2. apply (Same _ _ Hn') in E1. subst t' rest. eexists. apply parse_reward; auto.
  - cbn [nth] in E0. apply (Same _ _ Hn') in E0. exfalso. apply H8. auto.
Qed.
Print Assumptions C14_no_rejection.
Example C14_exact_example : exists a, NewAddressFromBytes (header 6 9 :: ex_hash 9) [] = Ok a /\ addr_network a = {| NetworkId := 0; ProtocolMagic := 0 |}.
Proof. eexists. split; [vm_compute; reflexivity | reflexivity]. Qed.

(** ** C15 *)

(** Full statement: an accepted text has the human-readable part its address prints. Exactly which texts are accepted: those of the
    bytes of an address, under any human-readable part that makes them start with addr or stake. *)
Theorem C15_exact : forall (U : Unicode) (R : Runtime) s a, ascii_string s -> shelley_text s ->
  (NewAddress s = Ok a <-> exists hrp b, bech32_text s hrp b /\ NewAddressFromBytes b (append_spare (length b)) = Ok a).
Proof.
  intros U R s a As T. apply shelley_text_iff in T. unfold NewAddress. rewrite T. split.
  - intros P. apply bind_ok in P as ([hrp b] & D & P). apply (bech32_text_decode s hrp b As) in D. exists hrp, b. split; assumption.
  - intros (hrp & b & D & P). apply (bech32_text_decode s hrp b As) in D. rewrite D. exact P.
Qed.
Print Assumptions C15_exact.
(** Two texts of the same bytes are read alike, whatever they name. *)
Theorem C15_any_prefix : forall (U : Unicode) (R : Runtime) s s' hrp hrp' b, ascii_string s -> ascii_string s' -> shelley_text s -> shelley_text s' ->
  bech32_text s hrp b -> bech32_text s' hrp' b -> NewAddress s = NewAddress s'.
Proof.
  intros U R s s' hrp hrp' b As As' T T' D D'. apply shelley_text_iff in T. apply shelley_text_iff in T'.
  apply (bech32_text_decode s hrp b As) in D. apply (bech32_text_decode s' hrp' b As') in D'.
  unfold NewAddress. rewrite T, T', D, D'. reflexivity.
Qed.
Print Assumptions C15_any_prefix.

(** ** C17 *)

(** Full statement: MarshalCBOR of every Shelley address is the byte string of its bytes. It is, exactly unless it is a reward
    address. The length bound holds of every Go slice. *)
Theorem C17_exact : forall a, ~ is_byron a -> zlen (addr_bytes a) < 2 ^ 64 ->
  (addr_marshal a = Ok (cbor (Bstr (addr_bytes a))) <-> ~ is_reward a) /\ addr_marshal a <> Panic.
Proof.
  intros a B L. assert (D : is_reward a \/ ~ is_reward a) by (destruct a; cbn; auto). destruct D as [D | D].
  - destruct a as [| | r | |]; try contradiction. destruct (C17_reward_refuted r) as (e & ->). split; [| discriminate].
    split; [discriminate | intros N; contradiction].
  - rewrite (C17_marshal_partial a B D L). split; [split; [intros _; exact D | reflexivity] | discriminate].
Qed.
Print Assumptions C17_exact.
