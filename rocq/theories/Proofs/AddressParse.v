(** What NewAddressFromBytes accepts, and when it panics. *)
From Verif.Model Require Import Base Bech32 Hex Base58 Cbor Network Address.
From Verif.Spec Require Import VarNatSpec Cip19 AddressSpec.
From Verif.Proofs Require Import Util VarNat AddressFacts.

Lemma slice_cases {A} (l : list A) lo hi :
  (slice l lo hi = Panic /\ (hi < lo \/ length l < hi)%nat) \/
  exists a b c, l = a ++ b ++ c /\ length a = lo /\ length b = (hi - lo)%nat /\ slice l lo hi = Ok b.
Proof.
  unfold slice. destruct (Nat.leb_spec lo hi), (Nat.leb_spec hi (length l)); cbn [andb]; try (left; split; [reflexivity | lia]).
  right. exists (firstn lo l), (firstn (hi - lo) (skipn lo l)), (skipn (hi - lo) (skipn lo l)).
  rewrite !firstn_skipn. split; auto. rewrite !firstn_length, skipn_length. repeat split; lia.
Qed.

Lemma read_cases data spare h bit pos :
  (readAddrCred data spare h bit pos = Panic /\ (length data + length spare < pos + 28)%nat) \/
  exists a b c, data ++ spare = a ++ b ++ c /\ length a = pos /\ length b = 28%nat /\
    readAddrCred data spare h bit pos =
      Ok (if Z.land h (u8 (Z.shiftl 1 bit)) =? 0 then NewKeyStakeCredential b else NewScriptStakeCredential b).
Proof.
  unfold readAddrCred.
  destruct (slice_cases (data ++ spare) pos (pos + 28)) as [[-> L] | (a & b & c & E & La & Lb & ->)].
  - left. rewrite app_length in L. split; [reflexivity | lia].
  - right. exists a, b, c. repeat split; auto; [lia |]. cbn [bind]. destruct (_ =? 0); reflexivity.
Qed.

Lemma varnat_decode_no_panic raw : VariableNatDecode raw <> Panic.
Proof.
  unfold VariableNatDecode. assert (G : forall o c, varnat_decode_loop raw o c <> Panic); [| apply G].
  induction raw as [| b raw IH]; intros o c; cbn [varnat_decode_loop]; [discriminate |].
  destruct (_ =? 0); [discriminate | apply IH].
Qed.

Lemma byron_no_panic data : byron_unmarshal data <> Panic.
Proof.
  unfold byron_unmarshal.
  repeat match goal with
  | |- context [match ?x with _ => _ end] => destruct x; try discriminate
  | |- context [if ?x then _ else _] => destruct x; try discriminate
  end.
Qed.

(** Exactly when it panics. *)
Lemma parse_panic data spare : bytes_ok data ->
  (NewAddressFromBytes data spare = Panic <->
   data = [] \/ (nth 0 data 0 / 16 < 4 /\ (length data + length spare < 57)%nat)).
Proof.
  intros B. destruct data as [| h rest].
  - split; [left; auto | intros _; reflexivity].
  - inversion B; subst. destruct (hdr_split h H1) as (Eh & Ht & Hn).
    set (t := h / 16) in *. set (n := h mod 16) in *. cbn [nth]. 
    split.
    + intros P. right. unfold NewAddressFromBytes, index in P. cbn [nth_error bind] in P.
      hdr t n. rewrite <- Eh in *. rewrite N, T in P.
      fold t.
      destruct (Z.eqb_spec t 8).
      { destruct (byron_unmarshal (h :: rest)) eqn:E; cbn [bind] in P; try discriminate.
        exfalso. eapply byron_no_panic; eauto. }
      destruct ((t =? 0) || (t =? 1) || (t =? 2) || (t =? 3)) eqn:K.
      { split; [lia |].
        destruct (read_cases (h :: rest) spare h 4 1) as [[R L] | (a & b & c & E & La & Lb & R)]; [lia |].
        destruct (read_cases (h :: rest) spare h 5 29) as [[R2 L2] | (a2 & b2 & c2 & E2 & La2 & Lb2 & R2)]; [lia |].
        rewrite R, R2 in P. discriminate. }
      exfalso.
      destruct ((t =? 4) || (t =? 5)).
      { destruct (Nat.ltb_spec (length (h :: rest)) 32); [discriminate |].
        destruct (read_cases (h :: rest) spare h 4 1) as [[R L] | (a & b & c & E & La & Lb & R)]; [lia |].
        rewrite R in P. cbn [bind] in P.
        repeat match type of P with
        | context [VariableNatDecode ?x] => pose proof (varnat_decode_no_panic x);
            destruct (VariableNatDecode x) as [[? ?] | |]; cbn [bind] in P; try discriminate; try contradiction
        end.
        destruct (_ <? _)%nat in P; discriminate. }
      destruct ((t =? 6) || (t =? 7)).
      { destruct (Nat.ltb_spec (length (h :: rest)) 29); [discriminate |].
        destruct (29 <? length (h :: rest))%nat; [discriminate |].
        destruct (read_cases (h :: rest) spare h 4 1) as [[R L] | (a & b & c & E & La & Lb & R)]; [lia |].
        rewrite R in P. discriminate. }
      destruct ((t =? 14) || (t =? 15)).
      { destruct (Nat.ltb_spec (length (h :: rest)) 29); [discriminate |].
        destruct (29 <? length (h :: rest))%nat; [discriminate |].
        destruct (read_cases (h :: rest) spare h 4 1) as [[R L] | (a & b & c & E & La & Lb & R)]; [lia |].
        rewrite R in P. discriminate. }
      discriminate.
    + intros [N | [K L]]; [discriminate |]. fold t in K. unfold NewAddressFromBytes, index. cbn [nth_error bind].
      hdr t n. rewrite <- Eh in *. rewrite N, T.
      replace (t =? 8) with false by lia.
      replace ((t =? 0) || (t =? 1) || (t =? 2) || (t =? 3)) with true by lia.
      destruct (read_cases (h :: rest) spare h 4 1) as [[R L1] | (a & b & c & E & La & Lb & R)]; rewrite R; [reflexivity |].
      cbn [bind].
      destruct (read_cases (h :: rest) spare h 5 29) as [[R2 L2] | (a2 & b2 & c2 & E2 & La2 & Lb2 & R2)]; rewrite R2; [reflexivity |].
      exfalso. apply (f_equal (@length Z)) in E2. rewrite !app_length in E2. lia.
Qed.

(** What is accepted. *)
Inductive accepted (data spare : bytes) : Address -> Prop :=
| acc_base t n pay stake post : 0 <= t < 4 -> 0 <= n < 16 -> length pay = 28%nat -> length stake = 28%nat ->
    data ++ spare = header t n :: pay ++ stake ++ post ->
    accepted data spare (ABase {| ba_net := networks n; ba_pay := cred (Z.odd t) pay; ba_stake := cred (Z.odd (t / 2)) stake |})
| acc_pointer t n pay l1 l2 l3 : (t = 4 \/ t = 5) -> 0 <= n < 16 -> length pay = 28%nat ->
    item128 l1 -> item128 l2 -> item128 l3 ->
    data = header t n :: pay ++ l1 ++ l2 ++ l3 ->
    accepted data spare (APointer {| pa_net := networks n; pa_pay := cred (Z.odd t) pay;
      pa_ptr := {| Slot := u64 (value128 l1); TxIndex := u64 (value128 l2); CertIndex := u64 (value128 l3) |} |})
| acc_enterprise t n pay : (t = 6 \/ t = 7) -> 0 <= n < 16 -> length pay = 28%nat ->
    data = header t n :: pay ->
    accepted data spare (AEnterprise {| ea_net := networks n; ea_pay := cred (Z.odd t) pay |})
| acc_reward t n pay : (t = 14 \/ t = 15) -> 0 <= n < 16 -> length pay = 28%nat ->
    data = header t n :: pay ->
    accepted data spare (AReward {| ra_net := networks n; ra_stake := cred (Z.odd t) pay |})
| acc_byron b n : 0 <= n < 16 -> nth 0 data 0 = header 8 n -> byron_unmarshal data = Ok b -> accepted data spare (AByron b).

Lemma split1 (h : Z) (rest spare a b c : bytes) : (h :: rest) ++ spare = a ++ b ++ c -> length a = 1%nat -> a = [h] /\ rest ++ spare = b ++ c.
Proof. destruct a as [| x [| y a]]; try discriminate. cbn. intros E _. injection E as -> E. auto. Qed.

Lemma parse_accepted data spare a : bytes_ok data -> NewAddressFromBytes data spare = Ok a -> accepted data spare a.
Proof.
  intros B P. destruct data as [| h rest]; [discriminate |].
  inversion B; subst. destruct (hdr_split h H1) as (Eh & Ht & Hn).
  set (t := h / 16) in *. set (n := h mod 16) in *.
  unfold NewAddressFromBytes, index in P. cbn [nth_error bind] in P.
  hdr t n. rewrite <- Eh in *. rewrite N, T in P.
  destruct (Z.eqb_spec t 8) as [T8 | T8].
  { apply bind_ok in P as (b & E & P). injection P as <-. apply acc_byron with n; auto. rewrite <- T8. exact Eh. }
  destruct ((t =? 0) || (t =? 1) || (t =? 2) || (t =? 3)) eqn:K.
  { destruct (read_cases (h :: rest) spare h 4 1) as [[R L] | (p & b & c & E & La & Lb & R)]; rewrite R in P; [discriminate |].
    cbn [bind] in P.
    destruct (read_cases (h :: rest) spare h 5 29) as [[R2 L2] | (p2 & b2 & c2 & E2 & La2 & Lb2 & R2)]; rewrite R2 in P; [discriminate |].
    cbn [bind] in P. rewrite B4, B5 in P. injection P as <-.
    apply split1 in E as [-> E]; auto.
    assert (p2 = h :: b /\ c = b2 ++ c2) as [-> ->].
    { rewrite <- app_comm_cons, E in E2. rewrite app_comm_cons in E2.
      apply app_inj_len in E2; [destruct E2; auto | cbn [length]; lia]. }
    replace (if negb (Z.odd t) then NewKeyStakeCredential b else NewScriptStakeCredential b) with (cred (Z.odd t) b) by (destruct (Z.odd t); reflexivity).
    replace (if negb (Z.odd (t / 2)) then NewKeyStakeCredential b2 else NewScriptStakeCredential b2) with (cred (Z.odd (t / 2)) b2) by (destruct (Z.odd (t / 2)); reflexivity).
    apply (acc_base _ _ t n b b2 c2); auto; [lia |]. rewrite <- Eh, <- E. reflexivity. }
  destruct ((t =? 4) || (t =? 5)) eqn:K4.
  { destruct (Nat.ltb_spec (length (h :: rest)) 32) as [L | L]; [discriminate |].
    destruct (read_cases (h :: rest) spare h 4 1) as [[R L1] | (p & b & c & E & La & Lb & R)]; rewrite R in P; [discriminate |].
    cbn [bind] in P. apply split1 in E as [-> E]; auto.
    assert (exists c', rest = b ++ c') as [c' ->].
    { exists (skipn 28 rest). rewrite <- (firstn_skipn 28 rest) at 1. f_equal.
      apply (f_equal (firstn 28)) in E. rewrite !firstn_app in E. rewrite <- Lb in E at 3 4. rewrite Nat.sub_diag, firstn_all in E.
      cbn [length] in L. replace (28 - length rest)%nat with 0%nat in E by lia. cbn [firstn] in E. rewrite !app_nil_r in E. exact E. }
    assert (Bc : bytes_ok c') by (apply Forall_app in H2; tauto).
    assert (S1 : skipn 29 (h :: b ++ c') = c').
    { change (skipn 28 (b ++ c') = c'). rewrite skipn_app, skipn_all2, Lb by lia. reflexivity. }
    rewrite S1 in P.
    destruct (decode_spec c' Bc) as [[D _] | (l1 & r1 & -> & I1 & D)]; rewrite D in P; [discriminate |]. cbn [bind] in P.
    apply Forall_app in Bc as [_ Br1].
    assert (S2 : skipn (29 + Z.to_nat (zlen l1)) (h :: b ++ l1 ++ r1) = r1).
    { rewrite <- skipn_skipn_add, S1. unfold zlen. rewrite Nat2Z.id, skipn_app, skipn_all, Nat.sub_diag. reflexivity. }
    rewrite S2 in P.
    destruct (decode_spec r1 Br1) as [[D2 _] | (l2 & r2 & -> & I2 & D2)]; rewrite D2 in P; [discriminate |]. cbn [bind] in P.
    apply Forall_app in Br1 as [_ Br2].
    assert (S3 : skipn (29 + Z.to_nat (zlen l1) + Z.to_nat (zlen l2)) (h :: b ++ l1 ++ l2 ++ r2) = r2).
    { rewrite <- skipn_skipn_add, S2. unfold zlen. rewrite Nat2Z.id, skipn_app, skipn_all, Nat.sub_diag. reflexivity. }
    rewrite S3 in P.
    destruct (decode_spec r2 Br2) as [[D3 _] | (l3 & r3 & -> & I3 & D3)]; rewrite D3 in P; [discriminate |]. cbn [bind] in P.
    unfold zlen in P. rewrite !Nat2Z.id in P.
    destruct (Nat.ltb_spec (29 + length l1 + length l2 + length l3) (length (h :: b ++ l1 ++ l2 ++ l3 ++ r3))) as [L5 | L5]; [discriminate |].
    assert (r3 = []) as ->.
    { destruct r3; auto. cbn [length] in L5. rewrite !app_length in L5. cbn [length] in L5. lia. }
    rewrite B4 in P. injection P as <-.
    replace (if negb (Z.odd t) then NewKeyStakeCredential b else NewScriptStakeCredential b) with (cred (Z.odd t) b) by (destruct (Z.odd t); reflexivity).
    apply acc_pointer; auto; [lia |]. rewrite app_nil_r, <- Eh. reflexivity. }
  destruct ((t =? 6) || (t =? 7)) eqn:K6.
  { destruct (Nat.ltb_spec (length (h :: rest)) 29) as [L | L]; [discriminate |].
    destruct (Nat.ltb_spec 29 (length (h :: rest))) as [L' | L']; [discriminate |].
    destruct (read_cases (h :: rest) spare h 4 1) as [[R L1] | (p & b & c & E & La & Lb & R)]; rewrite R in P; [discriminate |].
    cbn [bind] in P. apply split1 in E as [-> E]; auto. rewrite B4 in P. injection P as <-.
    cbn [length] in L, L'. apply app_inj_len in E as [-> ->]; [| lia].
    replace (if negb (Z.odd t) then NewKeyStakeCredential b else NewScriptStakeCredential b) with (cred (Z.odd t) b) by (destruct (Z.odd t); reflexivity).
    apply acc_enterprise; auto; [lia |]. rewrite <- Eh. reflexivity. }
  destruct ((t =? 14) || (t =? 15)) eqn:K14; [| discriminate].
  destruct (Nat.ltb_spec (length (h :: rest)) 29) as [L | L]; [discriminate |].
  destruct (Nat.ltb_spec 29 (length (h :: rest))) as [L' | L']; [discriminate |].
  destruct (read_cases (h :: rest) spare h 4 1) as [[R L1] | (p & b & c & E & La & Lb & R)]; rewrite R in P; [discriminate |].
  cbn [bind] in P. apply split1 in E as [-> E]; auto. rewrite B4 in P. injection P as <-.
  cbn [length] in L, L'. apply app_inj_len in E as [-> ->]; [| lia].
  replace (if negb (Z.odd t) then NewKeyStakeCredential b else NewScriptStakeCredential b) with (cred (Z.odd t) b) by (destruct (Z.odd t); reflexivity).
  apply acc_reward; auto; [lia |]. rewrite <- Eh. reflexivity.
Qed.
