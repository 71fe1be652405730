(** Shelley addresses: layout, parsing, round trips. *)
From Verif.Model Require Import Base Bech32 Hex Base58 Cbor Network Address.
From Verif.Spec Require Import VarNatSpec Cip19 AddressSpec.
From Verif.Proofs Require Import Util VarNat.

Lemma hash28_ok h : hash28 h -> bytes_ok h.
Proof. intros [_ H]. apply Forall_forall. exact H. Qed.

Lemma copy_head (x : Z) n : copy_at (repeat 0 (S n)) 0 1 [x] = x :: repeat 0 n.
Proof. reflexivity. Qed.

Lemma copy_mid (a h : bytes) n lo hi : length a = lo -> (hi - lo = length h)%nat -> (length h <= n)%nat ->
  copy_at (a ++ repeat 0 n) lo hi h = a ++ h ++ repeat 0 (n - length h).
Proof.
  intros <- L Ln. unfold copy_at. rewrite L, Nat.min_id.
  rewrite firstn_app, Nat.sub_diag, firstn_all. cbn [firstn]. rewrite app_nil_r, firstn_all.
  do 2 f_equal. rewrite skipn_app. rewrite skipn_all2 by lia. cbn [app].
  replace (length a + length h - length a)%nat with (length h) by lia.
  clear. revert n. induction (length h) as [| k IH]; intros n; [rewrite Nat.sub_0_r; reflexivity |].
  destruct n; [reflexivity |]. cbn [repeat skipn Nat.sub]. apply IH.
Qed.

(** ** C04: layout *)
Lemma kind_cases c : cred_ok c -> Kind c = script_bit (is_script c).
Proof. intros [[K | K] _]; unfold is_script; rewrite K; reflexivity. Qed.

Ltac net_sweep n H :=
  let S := fresh in
  match goal with |- ?l = ?r =>
    let f := eval pattern n in l in let g := eval pattern n in r in
    match f with ?F _ => match g with ?G _ =>
      assert (S : forallb (fun n => F n =? G n) (zrange 16) = true) by (vm_compute; reflexivity);
      apply (sweep 16 _ S) in H; apply Z.eqb_eq in H; exact H end end end.

Lemma base_header k1 k2 n : (k1 = 0 \/ k1 = 1) -> (k2 = 0 \/ k2 = 1) -> 0 <= n < 16 ->
  Z.lor (Z.lor (u8 (Z.shiftl k1 4)) (u8 (Z.shiftl k2 5))) (Z.land n 15) = header (k1 + 2 * k2) n.
Proof. intros [-> | ->] [-> | ->] H; net_sweep n H. Qed.
Lemma kind_header c k n : (c = 0x60 \/ c = 0xe0 \/ c = 0x40) -> (k = 0 \/ k = 1) -> 0 <= n < 16 ->
  Z.lor (Z.lor c (u8 (Z.shiftl k 4))) (Z.land n 15) = header (c / 16 + k) n.
Proof. intros [-> | [-> | ->]] [-> | ->] H; net_sweep n H. Qed.

Lemma base_layout_lemma b : cred_ok (ba_pay b) -> cred_ok (ba_stake b) -> 0 <= NetworkId (ba_net b) < 16 ->
  base_bytes b = base_layout (NetworkId (ba_net b)) (is_script (ba_pay b)) (is_script (ba_stake b))
                   (Payload (ba_pay b)) (Payload (ba_stake b)).
Proof.
  intros H1 H2 Hn. unfold base_bytes, base_layout.
  rewrite base_header; [| apply H1 | apply H2 | exact Hn].
  rewrite <- !kind_cases by auto. destruct H1 as [_ [L1 _]], H2 as [_ [L2 _]].
  change 57%nat with (S 56). rewrite copy_head.
  set (h := header _ _). change (h :: repeat 0 56) with ([h] ++ repeat 0 56).
  rewrite copy_mid by (auto; rewrite L1; lia). rewrite L1. cbn [Nat.sub].
  rewrite app_assoc.
  rewrite copy_mid by (rewrite ?app_length; cbn [length]; lia). rewrite L2. cbn [Nat.sub repeat].
  rewrite app_nil_r, <- app_assoc. reflexivity.
Qed.

Lemma enterprise_layout_lemma e : cred_ok (ea_pay e) -> 0 <= NetworkId (ea_net e) < 16 ->
  enterprise_bytes e = enterprise_layout (NetworkId (ea_net e)) (is_script (ea_pay e)) (Payload (ea_pay e)).
Proof.
  intros H1 Hn. unfold enterprise_bytes, enterprise_layout.
  rewrite kind_header by (auto; apply H1). rewrite <- kind_cases by auto. destruct H1 as [_ [L1 _]].
  change 29%nat with (S 28) at 1. rewrite copy_head. set (h := header _ _). change (h :: repeat 0 28) with ([h] ++ repeat 0 28).
  rewrite copy_mid by (auto; rewrite L1; lia). rewrite L1. cbn [Nat.sub repeat]. rewrite app_nil_r. reflexivity.
Qed.

Lemma reward_layout_lemma e : cred_ok (ra_stake e) -> 0 <= NetworkId (ra_net e) < 16 ->
  reward_bytes e = reward_layout (NetworkId (ra_net e)) (is_script (ra_stake e)) (Payload (ra_stake e)).
Proof.
  intros H1 Hn. unfold reward_bytes, reward_layout.
  rewrite kind_header by (auto; apply H1). rewrite <- kind_cases by auto. destruct H1 as [_ [L1 _]].
  change 29%nat with (S 28) at 1. rewrite copy_head. set (h := header _ _). change (h :: repeat 0 28) with ([h] ++ repeat 0 28).
  rewrite copy_mid by (auto; rewrite L1; lia). rewrite L1. cbn [Nat.sub repeat]. rewrite app_nil_r. reflexivity.
Qed.

Lemma nat_layout_encode n : uint64 n -> nat_layout n (VariableNatEncode n).
Proof. intros H. destruct (encode_item n H) as (I & V & M & _). repeat split; auto. Qed.

Lemma pointer_bytes_eq p : cred_ok (pa_pay p) -> 0 <= NetworkId (pa_net p) < 16 ->
  pointer_bytes p = header (4 + script_bit (is_script (pa_pay p))) (NetworkId (pa_net p)) :: Payload (pa_pay p)
    ++ VariableNatEncode (Slot (pa_ptr p)) ++ VariableNatEncode (TxIndex (pa_ptr p)) ++ VariableNatEncode (CertIndex (pa_ptr p)).
Proof.
  intros H1 Hn. unfold pointer_bytes. rewrite kind_header by (auto; apply H1). rewrite <- kind_cases by auto. reflexivity.
Qed.

Lemma pointer_layout_lemma p : cred_ok (pa_pay p) -> ptr_ok (pa_ptr p) -> 0 <= NetworkId (pa_net p) < 16 ->
  pointer_layout (NetworkId (pa_net p)) (is_script (pa_pay p)) (Payload (pa_pay p))
    (Slot (pa_ptr p)) (TxIndex (pa_ptr p)) (CertIndex (pa_ptr p)) (pointer_bytes p).
Proof.
  intros H1 (P1 & P2 & P3) Hn. rewrite pointer_bytes_eq by auto.
  do 3 eexists. split; [apply nat_layout_encode, P1 |]. split; [apply nat_layout_encode, P2 |].
  split; [apply nat_layout_encode, P3 |]. reflexivity.
Qed.

(** ** Parsing *)
Lemma readAddrCred_ok data spare h pre post hd bit : data ++ spare = pre ++ h ++ post -> length h = 28%nat ->
  readAddrCred data spare hd bit (length pre) =
    Ok (if Z.land hd (u8 (Z.shiftl 1 bit)) =? 0 then NewKeyStakeCredential h else NewScriptStakeCredential h).
Proof.
  intros E L. unfold readAddrCred. rewrite E, <- L, slice_ok. cbn [bind].
  destruct (_ =? 0); reflexivity.
Qed.

(** The header byte: type and network nibbles, script bits. *)
Definition hdr_ok (t n : Z) : bool :=
  let h := header t n in
  (Z.land h 15 =? n) && (Z.shiftr (Z.land h 0xf0) 4 =? t) &&
  Bool.eqb (Z.land h (u8 (Z.shiftl 1 4)) =? 0) (negb (Z.odd t)) &&
  Bool.eqb (Z.land h (u8 (Z.shiftl 1 5)) =? 0) (negb (Z.odd (t / 2))).
Lemma hdr_sweep t n : 0 <= t < 16 -> 0 <= n < 16 -> hdr_ok t n = true.
Proof.
  intros Ht Hn.
  assert (S : forallb (fun t => forallb (hdr_ok t) (zrange 16)) (zrange 16) = true) by (vm_compute; reflexivity).
  apply (sweep 16 _ S) in Ht. apply (sweep 16 _ Ht) in Hn. exact Hn.
Qed.
Lemma hdr_split h : 0 <= h < 256 -> h = header (h / 16) (h mod 16) /\ 0 <= h / 16 < 16 /\ 0 <= h mod 16 < 16.
Proof.
  intros. unfold header. pose proof (Z.div_mod h 16 ltac:(lia)). pose proof (Z.mod_pos_bound h 16 ltac:(lia)).
  repeat split; try lia.
Qed.

(** A parsed credential. *)
Definition cred (script : bool) (h : bytes) : StakeCredential := {| Kind := script_bit script; Payload := h |}.

Definition odd_script (t : Z) : bool := Z.odd t.

Ltac hdr t n :=
  let H := fresh "Hd" in
  pose proof (hdr_sweep t n ltac:(lia) ltac:(lia)) as H; unfold hdr_ok in H;
  rewrite !andb_true_iff in H; destruct H as [[[?N ?T] ?B4] ?B5];
  apply Z.eqb_eq in N, T; apply eqb_prop in B4, B5.

Lemma parse_base t n pay stake rest data spare :
  0 <= t < 4 -> 0 <= n < 16 -> length pay = 28%nat -> length stake = 28%nat -> data <> [] ->
  data ++ spare = header t n :: pay ++ stake ++ rest ->
  NewAddressFromBytes data spare =
    Ok (ABase {| ba_net := networks n; ba_pay := cred (Z.odd t) pay; ba_stake := cred (Z.odd (t / 2)) stake |}).
Proof.
  intros Ht Hn Lp Ls Nd E. unfold NewAddressFromBytes.
  destruct data as [| h data']; [contradiction |]. injection E as -> E.
  cbn [index nth_error bind]. unfold index. cbn [nth_error bind].
  hdr t n. rewrite N, T.
  replace (t =? 8) with false by lia.
  replace ((t =? 0) || (t =? 1) || (t =? 2) || (t =? 3)) with true by lia.
  change 1%nat with (length [header t n]) at 1.
  rewrite (readAddrCred_ok _ _ pay [header t n] (stake ++ rest)) by (auto; cbn [app]; rewrite E; reflexivity).
  cbn [bind].
  replace 29%nat with (length ([header t n] ++ pay)) by (rewrite app_length, Lp; reflexivity).
  rewrite (readAddrCred_ok _ _ stake ([header t n] ++ pay) rest) by (auto; cbn [app]; rewrite E; reflexivity).
  cbn [bind]. rewrite B4, B5. destruct (Z.odd t), (Z.odd (t / 2)); reflexivity.
Qed.

Lemma parse_pointer t n pay l1 l2 l3 spare :
  (t = 4 \/ t = 5) -> 0 <= n < 16 -> length pay = 28%nat ->
  item128 l1 -> item128 l2 -> item128 l3 ->
  NewAddressFromBytes (header t n :: pay ++ l1 ++ l2 ++ l3) spare =
    Ok (APointer {| pa_net := networks n; pa_pay := cred (Z.odd t) pay;
                    pa_ptr := {| Slot := u64 (value128 l1); TxIndex := u64 (value128 l2); CertIndex := u64 (value128 l3) |} |}).
Proof.
  intros Ht Hn Lp I1 I2 I3. unfold NewAddressFromBytes, index. cbn [nth_error bind].
  hdr t n. rewrite N, T.
  replace (t =? 8) with false by lia.
  replace ((t =? 0) || (t =? 1) || (t =? 2) || (t =? 3)) with false by lia.
  replace ((t =? 4) || (t =? 5)) with true by lia.
  assert (Pos : forall l, item128 l -> (1 <= length l)%nat) by (intros l (g & x & -> & _); rewrite app_length; cbn; lia).
  assert (Bok : forall l, item128 l -> bytes_ok l).
  { intros l (g & x & -> & G & X). apply Forall_app. split.
    - apply Forall_forall. intros b Hb. apply G in Hb. unfold is_byte. lia.
    - constructor; [unfold is_byte; lia | constructor]. }
  set (hd := header t n) in *.
  assert (Len : length (hd :: pay ++ l1 ++ l2 ++ l3) = (29 + length l1 + length l2 + length l3)%nat).
  { cbn [length]. rewrite !app_length. lia. }
  pose proof (Pos _ I1). pose proof (Pos _ I2). pose proof (Pos _ I3).
  destruct (Nat.ltb_spec (length (hd :: pay ++ l1 ++ l2 ++ l3)) 32); [lia |].
  change 1%nat with (length [hd]) at 1.
  rewrite (readAddrCred_ok _ _ pay [hd] (l1 ++ l2 ++ l3 ++ spare)) by (auto; cbn [app]; rewrite <- !app_assoc; reflexivity).
  cbn [bind].
  assert (S1 : skipn 29 (hd :: pay ++ l1 ++ l2 ++ l3) = l1 ++ l2 ++ l3).
  { change (skipn 28 (pay ++ l1 ++ l2 ++ l3) = l1 ++ l2 ++ l3). rewrite skipn_app, skipn_all2 by lia. rewrite Lp. reflexivity. }
  rewrite S1. rewrite decode_item by (auto; apply bytes_ok_app; auto). cbn [bind].
  assert (S2 : skipn (29 + Z.to_nat (zlen l1)) (hd :: pay ++ l1 ++ l2 ++ l3) = l2 ++ l3).
  { rewrite <- skipn_skipn_add, S1. unfold zlen. rewrite Nat2Z.id, skipn_app, skipn_all, Nat.sub_diag. reflexivity. }
  rewrite S2. rewrite decode_item by auto. cbn [bind].
  assert (S3 : skipn (29 + Z.to_nat (zlen l1) + Z.to_nat (zlen l2)) (hd :: pay ++ l1 ++ l2 ++ l3) = l3).
  { rewrite <- skipn_skipn_add, S2. unfold zlen. rewrite Nat2Z.id, skipn_app, skipn_all, Nat.sub_diag. reflexivity. }
  rewrite S3. rewrite <- (app_nil_r l3) at 1. rewrite decode_item by (auto; constructor). cbn [bind].
  unfold zlen. rewrite !Nat2Z.id, Len, Nat.ltb_irrefl.
  rewrite B4. destruct (Z.odd t); reflexivity.
Qed.

Lemma parse_enterprise t n pay spare : (t = 6 \/ t = 7) -> 0 <= n < 16 -> length pay = 28%nat ->
  NewAddressFromBytes (header t n :: pay) spare =
    Ok (AEnterprise {| ea_net := networks n; ea_pay := cred (Z.odd t) pay |}).
Proof.
  intros Ht Hn Lp. unfold NewAddressFromBytes, index. cbn [nth_error bind].
  hdr t n. rewrite N, T.
  replace (t =? 8) with false by lia.
  replace ((t =? 0) || (t =? 1) || (t =? 2) || (t =? 3)) with false by lia.
  replace ((t =? 4) || (t =? 5)) with false by lia.
  replace ((t =? 6) || (t =? 7)) with true by lia.
  cbn [length]. rewrite Lp. cbn [Nat.ltb Nat.leb].
  change 1%nat with (length [header t n]).
  rewrite (readAddrCred_ok _ _ pay [header t n] spare) by (auto; reflexivity).
  cbn [bind]. rewrite B4. destruct (Z.odd t); reflexivity.
Qed.

Lemma parse_reward t n pay spare : (t = 14 \/ t = 15) -> 0 <= n < 16 -> length pay = 28%nat ->
  NewAddressFromBytes (header t n :: pay) spare =
    Ok (AReward {| ra_net := networks n; ra_stake := cred (Z.odd t) pay |}).
Proof.
  intros Ht Hn Lp. unfold NewAddressFromBytes, index. cbn [nth_error bind].
  hdr t n. rewrite N, T.
  replace (t =? 8) with false by lia.
  replace ((t =? 0) || (t =? 1) || (t =? 2) || (t =? 3)) with false by lia.
  replace ((t =? 4) || (t =? 5)) with false by lia.
  replace ((t =? 6) || (t =? 7)) with false by lia.
  replace ((t =? 14) || (t =? 15)) with true by lia.
  cbn [length]. rewrite Lp. cbn [Nat.ltb Nat.leb].
  change 1%nat with (length [header t n]).
  rewrite (readAddrCred_ok _ _ pay [header t n] spare) by (auto; reflexivity).
  cbn [bind]. rewrite B4. destruct (Z.odd t); reflexivity.
Qed.

(** ** C05 *)
Lemma known_net_id n : known_net n -> 0 <= NetworkId n < 16 /\ networks (NetworkId n) = n.
Proof. intros [-> | ->]; cbn; split; auto; lia. Qed.

Lemma cred_eta c : cred_ok c -> cred (is_script c) (Payload c) = c.
Proof. intros H. unfold cred. rewrite <- kind_cases by auto. destruct c; reflexivity. Qed.

Lemma roundtrip_bytes a spare : shelley_ok a -> NewAddressFromBytes (addr_bytes a) spare = Ok a.
Proof.
  intros [P K]. apply known_net_id in K as [Kn Ke].
  destruct a as [[n p s] | [n p] | [n s] | [n p [sl tx ct]] | b]; cbn [shelley_parts_ok net_of addr_bytes ba_net ba_pay ba_stake ea_net ea_pay ra_net ra_stake pa_net pa_pay pa_ptr] in *.
  - destruct P as [P S]. rewrite base_layout_lemma by auto. unfold base_layout. cbn [ba_net ba_pay ba_stake].
    assert (R : 0 <= script_bit (is_script p) + 2 * script_bit (is_script s) < 4) by (unfold script_bit; destruct (is_script p), (is_script s); lia).
    rewrite (parse_base (script_bit (is_script p) + 2 * script_bit (is_script s)) (NetworkId n) (Payload p) (Payload s) spare); auto; try (apply P); try (apply S); try discriminate.
    + replace (Z.odd (script_bit (is_script p) + 2 * script_bit (is_script s))) with (is_script p) by (destruct (is_script p), (is_script s); reflexivity).
      replace (Z.odd ((script_bit (is_script p) + 2 * script_bit (is_script s)) / 2)) with (is_script s) by (destruct (is_script p), (is_script s); reflexivity).
      rewrite !cred_eta, Ke by auto. reflexivity.
    + cbn [app]. rewrite <- app_assoc. reflexivity.
  - rewrite enterprise_layout_lemma by auto. unfold enterprise_layout. cbn [ea_net ea_pay].
    rewrite parse_enterprise; auto; [| destruct (is_script p); cbn; lia | apply P].
    replace (Z.odd (6 + script_bit (is_script p))) with (is_script p) by (destruct (is_script p); reflexivity).
    rewrite cred_eta, Ke by auto. reflexivity.
  - rewrite reward_layout_lemma by auto. unfold reward_layout. cbn [ra_net ra_stake].
    rewrite parse_reward; auto; [| destruct (is_script s); cbn; lia | apply P].
    replace (Z.odd (14 + script_bit (is_script s))) with (is_script s) by (destruct (is_script s); reflexivity).
    rewrite cred_eta, Ke by auto. reflexivity.
  - destruct P as [P (P1 & P2 & P3)]. cbn [Slot TxIndex CertIndex] in *.
    rewrite pointer_bytes_eq by auto. cbn [pa_net pa_pay pa_ptr Slot TxIndex CertIndex].
    destruct (encode_item _ P1) as (I1 & V1 & _), (encode_item _ P2) as (I2 & V2 & _), (encode_item _ P3) as (I3 & V3 & _).
    rewrite parse_pointer; auto; [| destruct (is_script p); cbn; lia | apply P].
    rewrite V1, V2, V3, !u64_id by (unfold uint64 in *; lia).
    replace (Z.odd (4 + script_bit (is_script p))) with (is_script p) by (destruct (is_script p); reflexivity).
    rewrite cred_eta, Ke by auto. reflexivity.
  - contradiction.
Qed.
