(** C118: a signature checker made of the functions of crypto/edwards25519. *)
From Verif.Model Require Import Base Bech32 Edwards Tx Builder Bip32 Keys.
From Verif.Spec Require Import EdSpec TxSpec World Bip32Spec.
From Verif.Proofs Require Import Util Bech32Facts RadixFacts ScalarFacts FieldFacts CurveFacts GroupFacts TxFacts HeapFacts FieldEl FieldBytes PointFacts DecodeFacts TableFacts ScalarMult PrimeOrder Bip32Facts KeyFacts.
From Verif.Props Require Import Tx Edwards Builder Bip32.
Open Scope Z_scope.
#[local] Opaque zmul.

(** Verify of Go's crypto/ed25519 up to 1.16, the caller for which FromBytes, ScMinimal, GeDoubleScalarMultVartime and the ToBytes of
    projective coordinates (edwards25519.go:672-680, 718-762, 874-928, 1775-1793) are written. It is not part of /repo. *)
Definition negate (e : ExtendedGroupElement) : ExtendedGroupElement := mkExt (FeNeg (eX e)) (eY e) (eZ e) (FeNeg (eT e)).
Definition check {H : Hashes} (pk m sig : bytes) : bool :=
  if negb (length sig =? 64)%nat then false
  else match Ext_FromBytes pk with
       | None => false
       | Some A =>
           let h := ScReduce (sha512 (firstn 32 sig ++ pk ++ m)) in
           let s := skipn 32 sig in
           if ScMinimal s then bytes_eqb (firstn 32 sig) (Proj_ToBytes (GeDoubleScalarMultVartime h (negate A) s)) else false
       end.

Lemma negate_spec e P : repr_ext e P -> repr_ext (negate e) (pneg P).
Proof.
  intros [C (z & Z & HX & HY & HZ & HT)]. split; [apply pneg_on; exact C |]. exists z. destruct P as [x y]. rewrite pneg_mk. cbn [px py negate eX eY eZ eT] in *.
  split; [exact Z |]. split; [apply (fv_eq 200 _ (fopp (fmul x z))); [apply fv_neg; [lia | exact HX] | ring] |]. split; [exact HY |]. split; [exact HZ |].
  apply (fv_eq 101 _ (fopp (fmul (fmul x y) z))); [apply fv_neg; [lia | exact HT] | ring].
Qed.
(** What FromBytes reads as the point A: its y modulo p, and the parity of x unless x = 0 *)
Definition read_as (pk : bytes) (A : point) : Prop :=
  on_curve A /\ py A = of_Z (le_value pk mod 2 ^ 255) /\ (fval (px A) mod 2 = le_value pk / 2 ^ 255 \/ px A = f0).
Lemma read_unique pk A A' : read_as pk A -> read_as pk A' -> A = A'.
Proof.
  intros (C & Y & S) (C' & Y' & S'). destruct S' as [S' | Z']; [| symmetry; apply (point_unique A' A C' C); [congruence | right; exact Z']].
  apply (point_unique A A' C C'); [congruence |]. destruct S as [S | Z]; [left; congruence | right; exact Z].
Qed.
Lemma read_encode A : on_curve A -> read_as (encode_point A) A.
Proof.
  intros C. pose proof (fval_range (py A)) as RY. rewrite p_def in RY. pose proof (Z.mod_pos_bound (fval (px A)) 2 ltac:(lia)) as RX.
  assert (V : le_value (encode_point A) = (fval (py A) + 2 ^ 255 * (fval (px A) mod 2))%Z) by (unfold encode_point; apply le_value_le32; lia).
  split; [exact C |]. rewrite V. split; [| left]; rewrite (Z.mul_comm (2 ^ 255)).
  - rewrite Z.mod_add, Z.mod_small by lia. symmetry. apply of_Z_val.
  - rewrite Z.div_add, Z.div_small by lia. reflexivity.
Qed.
Lemma read_decode pk : bytes32 pk -> (exists e A, Ext_FromBytes pk = Some e /\ repr_ext e A /\ read_as pk A) \/ (Ext_FromBytes pk = None /\ forall A, ~ read_as pk A).
Proof.
  intros [B L]. pose proof (FromBytes_spec pk B L) as H. destruct (Ext_FromBytes pk) as [e |].
  - left. destruct H as (P & C & Y & S & R). exists e, P. split; [reflexivity |]. split; [exact R |]. split; [exact C |]. split; [exact Y | exact S].
  - right. split; [reflexivity |]. intros A (C & Y & _). exact (H A C Y).
Qed.

Section Verifier.
Context {H : Hashes}.
Definition challenge (pk m sig : bytes) : Z := le_value (sha512 (firstn 32 sig ++ pk ++ m)).
(** Exactly what is accepted, for every key and every signature: s below the group order, and r the encoding of [s]B - [h mod l]A. *)
Theorem C118_exact : forall pk m sig, hashes_ok -> bytes32 pk -> bytes_ok sig ->
  (check pk m sig = true <-> exists A, read_as pk A /\ length sig = 64%nat /\ le_value (skipn 32 sig) < ell /\
     firstn 32 sig = encode_point (padd (zmul (le_value (skipn 32 sig)) base_point) (pneg (zmul (challenge pk m sig mod ell) A)))).
Proof.
  intros pk m sig HO PK SB. unfold check. destruct (Nat.eqb_spec (length sig) 64) as [L | L]; cbn [negb]; [| split; [discriminate | intros (A & _ & X & _); contradiction]].
  assert (S32 : bytes32 (skipn 32 sig)). { split; [| rewrite skipn_length; lia]. rewrite <- (firstn_skipn 32 sig) in SB. apply bytes_ok_app in SB. apply SB. }
  destruct (read_decode pk PK) as [(e & A & -> & R & RD) | [-> N]]; [| split; [discriminate | intros (A & RD & _); elim (N A RD)]].
  assert (HB : bytes_ok (sha512 (firstn 32 sig ++ pk ++ m)) /\ length (sha512 (firstn 32 sig ++ pk ++ m)) = 64%nat) by apply HO. destruct (C43_ScReduce _ (proj1 HB) (proj2 HB)) as (K32 & KV & KR). fold (challenge pk m sig) in KV.
  set (h := ScReduce _) in *. clearbody h. cbv zeta. assert (EL : 0 < ell < 2 ^ 255) by (unfold ell; lia).
  assert (MAIN : le_value (skipn 32 sig) < ell -> Proj_ToBytes (GeDoubleScalarMultVartime h (negate e) (skipn 32 sig)) =
     encode_point (padd (zmul (le_value (skipn 32 sig)) base_point) (pneg (zmul (challenge pk m sig mod ell) A)))).
  { intros LS. pose proof (C53_partial h (negate e) (pneg A) (skipn 32 sig) K32 S32 ltac:(lia) ltac:(lia) (negate_spec e A R)) as D. rewrite (Proj_ToBytes_spec _ _ D). f_equal.
    rewrite KV.
    replace (zmul (challenge pk m sig mod ell) (pneg A)) with (pneg (zmul (challenge pk m sig mod ell) A)); [apply padd_comm |].
    rewrite <- (Z2Nat.id (challenge pk m sig mod ell)) by (rewrite <- KV; lia). rewrite !zmul_nat. symmetry. apply nmul_neg. }
  destruct (ScMinimal (skipn 32 sig)) eqn:MI.
  - apply (C45_ScMinimal _ S32) in MI. rewrite bytes_eqb_eq, (MAIN MI). split; [intros E; exists A; auto |]. intros (A' & RD' & _ & _ & E). rewrite (read_unique pk A A' RD RD'). exact E.
  - split; [discriminate |]. intros (A' & _ & _ & LS & _). apply (C45_ScMinimal _ S32) in LS. congruence.
Qed.
End Verifier.
Print Assumptions C118_exact.

(** Full statement: the checker accepts exactly the signatures of RFC 8032 (with the group equation without cofactor). For keys in the
    group generated by the base point that is so. Missing: other keys, for which it is false ([C118_encoding_refuted], [C118_reduced]). *)
Lemma equation s h A R : on_curve A -> on_curve R -> (R = padd (zmul s base_point) (pneg (zmul h A)) <-> zmul s base_point = padd R (zmul h A)).
Proof.
  intros CA CR. pose proof (zmul_on s base_point base_on) as CS. pose proof (zmul_on h A CA) as CH. split.
  - intros ->. pose proof (padd_cancel (zmul s base_point) (pneg (zmul h A)) CS (pneg_on _ CH)) as X. rewrite pneg_neg in X. symmetry. exact X.
  - intros E. rewrite E. symmetry. apply padd_cancel; assumption.
Qed.
Lemma accepted_equation A sig : on_curve A -> bytes_ok sig -> length sig = 64%nat -> forall h,
  (firstn 32 sig = encode_point (padd (zmul (le_value (skipn 32 sig)) base_point) (pneg (zmul h A))) <->
   exists R, on_curve R /\ encode_point R = firstn 32 sig /\ zmul (le_value (skipn 32 sig)) base_point = padd R (zmul h A)).
Proof.
  intros CA SB L h. set (s := le_value (skipn 32 sig)). clearbody s. pose proof (zmul_on s base_point base_on) as CS. pose proof (zmul_on h A CA) as CH. split.
  - intros E. exists (padd (zmul s base_point) (pneg (zmul h A))). assert (CR : on_curve (padd (zmul s base_point) (pneg (zmul h A)))) by (apply padd_on; [exact CS | apply pneg_on; exact CH]).
    split; [exact CR |]. split; [symmetry; exact E |]. apply (equation s h A _ CA CR). reflexivity.
  - intros (R & CR & ER & E). rewrite <- ER. f_equal. apply (equation s h A R CA CR). exact E.
Qed.
Theorem C118_subgroup_partial : forall (H : Hashes) A m sig, hashes_ok -> on_curve A -> zmul ell A = pzero -> bytes_ok sig ->
  (check (encode_point A) m sig = true <-> verifies sha512 (encode_point A) m sig).
Proof.
  intros H A m sig HO CA OA SB. assert (PK : bytes32 (encode_point A)) by apply encode_bytes. rewrite (C118_exact _ m sig HO PK SB). fold (challenge (encode_point A) m sig). assert (EL : 0 < ell) by (unfold ell; lia). unfold verifies. fold (challenge (encode_point A) m sig). split.
  - intros (A' & RD & L & LS & E). rewrite (read_unique _ A' A RD (read_encode A CA)) in E. rewrite (zmul_mod _ ell A CA OA EL) in E. apply (accepted_equation A sig CA SB L) in E as (R & CR & ER & E). exists A, R. auto 10.
  - intros (A' & R & CA' & EA & CR & ER & L & LS & E). apply C52_injective in EA; [| exact CA' | exact CA]. subst A'. exists A. split; [apply read_encode; exact CA |]. split; [exact L |]. split; [exact LS |].
    rewrite (zmul_mod _ ell A CA OA EL). apply (accepted_equation A sig CA SB L). exists R. auto.
Qed.
Print Assumptions C118_subgroup_partial.
(** In particular every signature that Sign makes with a key derived from a root key is accepted. *)
Theorem C118_library : forall (H : Hashes) root n k m, hashes_ok -> root_key root -> derived root n k -> Z.of_nat n < 2 ^ 26 -> exists pk c sig,
  Public k = Ok (pk ++ c) /\ bytes_len 32 pk /\ Sign k m = Ok sig /\ check pk m sig = true.
Proof.
  intros H root n k m HO R D N. destruct (C50_derived H root n k m HO R D N) as (c & sig & P & S & V). set (a := le_value (kL k)) in *. exists (public_of a), c, sig. split; [exact P |]. split; [apply encode_bytes |]. split; [exact S |].
  destruct (Sign_shape k m sig S) as [SB _]. apply C118_subgroup_partial; [exact HO | apply zmul_on; exact base_on | | exact SB | exact V].
  rewrite <- zmul_mul by exact base_on. rewrite Z.mul_comm, zmul_mul by exact base_on. rewrite ell_base. rewrite <- (zmul_0 base_point), <- zmul_mul by exact base_on. rewrite Z.mul_0_r. reflexivity.
Qed.
Print Assumptions C118_library.
(** For other keys the reduction of the challenge matters: what is accepted satisfies the equation of RFC 8032 exactly when the part of
    the challenge that is dropped vanishes at the key. *)
Theorem C118_reduced : forall (H : Hashes) A m sig, hashes_ok -> on_curve A -> bytes_ok sig -> check (encode_point A) m sig = true ->
  (verifies sha512 (encode_point A) m sig <-> zmul (ell * (challenge (encode_point A) m sig / ell)) A = pzero).
Proof.
  intros H A m sig HO CA SB CK. assert (PK : bytes32 (encode_point A)) by apply encode_bytes. apply (C118_exact _ m sig HO PK SB) in CK as (A' & RD & L & LS & E). rewrite (read_unique _ A' A RD (read_encode A CA)) in E. clear A' RD.
  assert (EL : 0 < ell) by (unfold ell; lia). unfold verifies. fold (challenge (encode_point A) m sig) in *. set (h := challenge (encode_point A) m sig) in *. apply (accepted_equation A sig CA SB L) in E as (R & CR & ER & E).
  assert (HH : zmul h A = padd (zmul (h mod ell) A) (zmul (ell * (h / ell)) A)) by (rewrite <- zmul_add by exact CA; f_equal; rewrite Z.add_comm; apply Z.div_mod; lia).
  pose proof (zmul_on (h mod ell) A CA) as C1. pose proof (zmul_on (ell * (h / ell)) A CA) as C2. split.
  - intros (A' & R' & CA' & EA & CR' & ER' & _ & _ & E'). apply C52_injective in EA; [| exact CA' | exact CA]. subst A'. rewrite <- ER in ER'. apply C52_injective in ER'; [| exact CR' | exact CR]. subst R'.
    rewrite E, HH in E'. set (X := zmul (h mod ell) A) in *. set (Y := zmul (ell * (h / ell)) A) in *. clearbody X Y.
    pose proof (padd_on R X CR C1) as CX. rewrite <- padd_assoc in E' by assumption.
    pose proof (padd_cancel Y (padd R X) C2 CX) as K. rewrite (padd_comm Y), <- E' in K. rewrite padd_neg_r in K by exact CX. symmetry. exact K.
  - intros Z. exists A, R. split; [exact CA |]. split; [reflexivity |]. split; [exact CR |]. split; [exact ER |]. split; [exact L |]. split; [exact LS |]. rewrite HH, Z, padd_0_r. exact E.
Qed.
Print Assumptions C118_reduced.
(** The checker does not insist on the canonical encoding of the key: the bytes of p + 1 are read as the neutral element, with which the
    same signature is accepted for every message, whatever the hash. *)
Lemma zmul_zero k : zmul k pzero = pzero.
Proof. rewrite <- (zmul_0 base_point), <- zmul_mul by exact base_on. f_equal. lia. Qed.
Definition other_one : bytes := le32 (p25519 + 1).
Definition blank_signature : bytes := encode_point pzero ++ repeat 0 32.
Theorem C118_encoding_refuted : exists pk sig, bytes32 pk /\ bytes_len 64 sig /\
  forall (H : Hashes) m, hashes_ok -> check pk m sig = true /\ ~ verifies sha512 pk m sig.
Proof.
  exists other_one, blank_signature. destruct (encode_bytes pzero) as [EB EL].
  assert (V : le_value other_one = p25519 + 1) by (unfold other_one; apply le_value_le32; rewrite p_def; lia).
  assert (FS : firstn 32 blank_signature = encode_point pzero) by (unfold blank_signature; rewrite firstn_app, EL, Nat.sub_diag, <- EL, firstn_all, firstn_O, app_nil_r; reflexivity).
  assert (SS : skipn 32 blank_signature = repeat 0 32) by (unfold blank_signature; rewrite skipn_app, EL, Nat.sub_diag, <- EL, skipn_all; reflexivity).
  assert (PK : bytes32 other_one) by (split; [apply le32_bytes | apply le32_length]).
  assert (SB : bytes_len 64 blank_signature). { split; [unfold blank_signature; apply bytes_ok_app; split; [exact EB | repeat constructor; lia] |]. unfold blank_signature. rewrite app_length, EL, repeat_length. reflexivity. }
  split; [exact PK |]. split; [exact SB |]. intros H m HO. split.
  - apply (C118_exact _ m _ HO PK (proj1 SB)). exists pzero. split.
    + split; [exact pzero_on |]. rewrite V. split; [| right; reflexivity]. cbn [py pzero]. unfold f1. apply of_Z_eq. rewrite p_def. vm_compute. reflexivity.
    + split; [exact (proj2 SB) |]. rewrite SS. assert (Z0 : le_value (repeat 0 32) = 0) by (vm_compute; reflexivity). rewrite Z0. split; [unfold ell; lia |]. rewrite FS, zmul_0, zmul_zero, pneg_zero, padd_0_l. reflexivity.
  - intros (A & R & CA & EA & _). pose proof (fval_range (py A)) as RY. pose proof (Z.mod_pos_bound (fval (px A)) 2 ltac:(lia)) as RX.
    assert (VA : le_value (encode_point A) = fval (py A) + 2 ^ 255 * (fval (px A) mod 2)) by (rewrite p_def in RY; unfold encode_point; apply le_value_le32; lia).
    rewrite EA, V in VA. rewrite p_def in *. lia.
Qed.
Print Assumptions C118_encoding_refuted.
(** A key meeting the hypotheses, and a signature of it that is refused: s is the group order. *)
Example C118_example : hashes_ok (H := toy_hashes) /\ on_curve (zmul 5 base_point) /\ zmul ell (zmul 5 base_point) = pzero /\
  forall m, check (H := toy_hashes) (encode_point (zmul 5 base_point)) m (encode_point base_point ++ le32 ell) = false.
Proof.
  split; [exact toy_hashes_ok |]. assert (C : on_curve (zmul 5 base_point)) by (apply zmul_on; exact base_on). split; [exact C |]. split.
  - rewrite <- zmul_mul by exact base_on. apply base_order. exists 5. lia.
  - intros m. set (sig := _ ++ le32 ell). destruct (check _ m sig) eqn:E; [exfalso | reflexivity]. destruct (encode_bytes base_point) as [EB EL].
    assert (SB : bytes_ok sig) by (apply bytes_ok_app; split; [exact EB | apply le32_bytes]). apply (C118_exact _ m sig toy_hashes_ok (encode_bytes _) SB) in E as (A & _ & _ & LS & _).
    unfold sig in LS. rewrite skipn_app, EL, Nat.sub_diag, <- EL, skipn_all in LS. cbn [app skipn] in LS. rewrite le_value_le32 in LS by (unfold ell; lia). lia.
Qed.
(** Nor does it agree with the RFC for every key that is encoded canonically: the point of order two, and a hash whose value is the group order. *)
Definition half_point : point := mkP f0 (fopp f1).
Lemma half_on : on_curve half_point.
Proof. unfold half_point. apply on_mk. unfold curve. ring. Qed.
Lemma half_neg : pneg half_point = half_point.
Proof. unfold half_point. rewrite pneg_mk. f_equal; try ring. Qed.
Lemma half_not_zero : half_point <> pzero.
Proof. intros E. apply (f_equal py) in E. change (py half_point) with (fopp f1) in E. change (py pzero) with f1 in E. apply two_nz. replace (of_Z 2) with (fsub f1 (fopp f1)); [rewrite E; ring |]. unfold f1. rewrite <- of_Z_opp, <- of_Z_sub. reflexivity. Qed.
Definition order_hashes : Hashes := {| sha256 := @sha256 toy_hashes; sha512 := fun _ => le32 ell ++ repeat 0 32; hmac_sha512 := @hmac_sha512 toy_hashes;
  pbkdf2_sha512 := @pbkdf2_sha512 toy_hashes; blake2b_224 := @blake2b_224 toy_hashes; blake2b_256 := @blake2b_256 toy_hashes |}.
Lemma order_hashes_ok : @hashes_ok order_hashes.
Proof.
  pose proof toy_hashes_ok as (H1 & H2 & H3 & H4 & H5 & H6). unfold hashes_ok. cbn [sha256 sha512 hmac_sha512 pbkdf2_sha512 blake2b_224 blake2b_256 order_hashes].
  split; [exact H1 |]. split; [| exact (conj H3 (conj H4 (conj H5 H6)))]. intros m. split.
  - apply bytes_ok_app. split; [apply le32_bytes | repeat constructor; lia].
  - rewrite app_length, le32_length, repeat_length. reflexivity.
Qed.
Theorem C118_torsion_refuted : exists (H : Hashes) A sig, hashes_ok /\ on_curve A /\ bytes_len 64 sig /\
  forall m, check (encode_point A) m sig = true /\ ~ verifies sha512 (encode_point A) m sig.
Proof.
  exists order_hashes, half_point, blank_signature. destruct (encode_bytes pzero) as [EB EL].
  assert (FS : firstn 32 blank_signature = encode_point pzero) by (unfold blank_signature; rewrite firstn_app, EL, Nat.sub_diag, <- EL, firstn_all, firstn_O, app_nil_r; reflexivity).
  assert (SS : skipn 32 blank_signature = repeat 0 32) by (unfold blank_signature; rewrite skipn_app, EL, Nat.sub_diag, <- EL, skipn_all; reflexivity).
  assert (SB : bytes_len 64 blank_signature). { split; [unfold blank_signature; apply bytes_ok_app; split; [exact EB | repeat constructor; lia] |]. unfold blank_signature. rewrite app_length, EL, repeat_length. reflexivity. }
  split; [exact order_hashes_ok |]. split; [exact half_on |]. split; [exact SB |]. intros m.
  assert (CH : @challenge order_hashes (encode_point half_point) m blank_signature = ell). { unfold challenge. cbn [sha512 order_hashes]. rewrite le_value_app, le_value_le32 by (unfold ell; lia). rewrite le32_length. change (le_value (repeat 0 32)) with 0. lia. }
  assert (CK : @check order_hashes (encode_point half_point) m blank_signature = true).
  { apply (@C118_exact order_hashes _ m _ order_hashes_ok (encode_bytes _) (proj1 SB)). exists half_point. split; [apply read_encode; exact half_on |]. split; [exact (proj2 SB) |]. rewrite CH, SS, FS. assert (Z0 : le_value (repeat 0 32) = 0) by (vm_compute; reflexivity). rewrite Z0.
    split; [unfold ell; lia |]. rewrite Z_mod_same_full, !zmul_0, pneg_zero, padd_0_l. reflexivity. }
  split; [exact CK |]. intros V. apply (C118_reduced order_hashes half_point m _ order_hashes_ok half_on (proj1 SB) CK) in V. rewrite CH, Z_div_same in V by (unfold ell; lia).
  apply half_not_zero. rewrite Z.mul_1_r in V. rewrite (Z_div_mod_eq_full ell 2) in V. replace (ell mod 2) with 1 in V by (vm_compute; reflexivity).
  rewrite zmul_add, zmul_1 in V by exact half_on. rewrite (Z.mul_comm 2), zmul_mul in V by exact half_on.
  assert (T : zmul 2 half_point = pzero). { replace 2 with (1 + 1) by lia. rewrite zmul_add, zmul_1 by exact half_on. rewrite <- half_neg at 2. apply padd_neg_r. exact half_on. }
  rewrite T, zmul_zero, padd_0_l in V. exact V.
Qed.
Print Assumptions C118_torsion_refuted.
(** No second signature: for one key, message and first half, at most one second half is accepted. *)
Theorem C118_unique : forall (H : Hashes) pk m sig sig', hashes_ok -> bytes32 pk -> bytes_ok sig -> bytes_ok sig' ->
  check pk m sig = true -> check pk m sig' = true -> firstn 32 sig = firstn 32 sig' -> sig = sig'.
Proof.
  intros H pk m sig sig' HO PK SB SB' C C' E. apply (C118_exact _ m sig HO PK SB) in C as (A & RD & L & LS & Q). apply (C118_exact _ m sig' HO PK SB') in C' as (A' & RD' & L' & LS' & Q').
  rewrite (read_unique pk A' A RD' RD) in Q'. assert (CA : on_curve A) by exact (proj1 RD). assert (HH : challenge pk m sig' = challenge pk m sig) by (unfold challenge; rewrite E; reflexivity). rewrite HH in Q'. set (h := challenge pk m sig mod ell) in *. clearbody h.
  assert (BS : bytes_ok (skipn 32 sig) /\ bytes_ok (skipn 32 sig')). { rewrite <- (firstn_skipn 32 sig) in SB. rewrite <- (firstn_skipn 32 sig') in SB'. apply bytes_ok_app in SB, SB'. split; [apply SB | apply SB']. }
  assert (LL : length (skipn 32 sig) = 32%nat /\ length (skipn 32 sig') = 32%nat) by (rewrite !skipn_length; lia).
  rewrite <- (firstn_skipn 32 sig), <- (firstn_skipn 32 sig'), <- E. f_equal. rewrite <- (le32_le_value _ (proj1 BS) (proj1 LL)), <- (le32_le_value _ (proj2 BS) (proj2 LL)). f_equal.
  pose proof (proj1 (le_value_range (skipn 32 sig) (proj1 BS))) as N. pose proof (proj1 (le_value_range (skipn 32 sig') (proj2 BS))) as N'.
  set (s := le_value (skipn 32 sig)) in *. set (s' := le_value (skipn 32 sig')) in *. clearbody s s'.
  pose proof (zmul_on s base_point base_on) as C1. pose proof (zmul_on s' base_point base_on) as C2. pose proof (pneg_on _ (zmul_on h A CA)) as C3. rewrite E, Q' in Q. apply C52_injective in Q; [| apply padd_on; assumption | apply padd_on; assumption].
  assert (Q2 : zmul s' base_point = zmul s base_point). { rewrite <- (padd_cancel _ _ C2 C3), Q, padd_cancel by assumption. reflexivity. }
  apply base_mult_eq in Q2. rewrite !Z.mod_small in Q2 by lia. symmetry. exact Q2.
Qed.
Print Assumptions C118_unique.
(** Every witness of a transaction built with such keys is accepted for the hash of its serialised body. *)
Theorem C118_built : forall (H : Hashes) (MO : MapOrder) w b w' t', hashes_ok -> @reachable (tx_crypto H) MO w -> (b < nbuilders w)%nat ->
  (forall k, In k (builder_keys w b) -> bytes_len 96 k /\ le_value (kL k) < 2 ^ 255) -> @build (tx_crypto H) MO w b = (w', Ok t') ->
  length (Witness (load w' t')) = length (builder_keys w b) /\
  exists s, body_marshal (Body (load w' t')) = Ok s /\ forall x, In x (Witness (load w' t')) -> check (VKey x) (blake2b_256 s) (Signature x) = true.
Proof.
  intros H MO w b w' t' HO R Hb KS E. destruct (C69_signed H MO w b w' t' HO R Hb KS E) as (s & Es & F). clear KS E. split; [symmetry; exact (Forall2_len _ _ _ F) |]. exists s. split; [exact Es |].
  induction F as [|k x ks xs (P & [SB SL] & V) _ IH]; intros y I; [contradiction I |]. destruct I as [<- | I]; [| exact (IH y I)].
  rewrite P in *. apply C118_subgroup_partial; [exact HO | apply zmul_on; exact base_on | | exact SB | exact V].
  rewrite <- zmul_mul by exact base_on. apply base_order. exists (le_value (kL k)). lia.
Qed.
Print Assumptions C118_built.
