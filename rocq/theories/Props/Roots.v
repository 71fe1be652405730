(** C109: different seeds, entropies and passphrases give different root keys. *)
From Verif.Model Require Import Base Edwards Bip32 HashFns.
From Verif.Spec Require Import EdSpec Bip32Spec.
From Verif.Proofs Require Import Util RadixFacts Bip32Facts HashFacts.

(** Two hash results that differ in nothing but the six bits of the left half that root keys have fixed. *)
Definition same_root (a b : bytes) : Prop := (forall i, 3 <= i < 253 -> Z.testbit (le_value (firstn 32 a)) i = Z.testbit (le_value (firstn 32 b)) i) /\ skipn 32 a = skipn 32 b.

Lemma normalize_same mask a b : bytes_ok a -> bytes_ok b -> (32 <= length a)%nat -> (32 <= length b)%nat -> mask = 95 \/ mask = 31 -> (normalize mask a = normalize mask b <-> same_root a b).
Proof.
  intros A B LA LB M. destruct (normalize_ok mask a A LA M) as [NA LNA]. destruct (normalize_ok mask b B LB M) as [NB LNB]. destruct (normalize_parts mask a LA) as [_ PA]. destruct (normalize_parts mask b LB) as [_ PB].
  pose proof (normalize_bits mask a A LA M) as BA. pose proof (normalize_bits mask b B LB M) as BB. split.
  - intros E. split; [| rewrite <- PA, <- PB, E; reflexivity]. intros i I. specialize (BA i ltac:(lia)). specialize (BB i ltac:(lia)). rewrite E, BB in BA. unfold forced in BA.
    replace (i <=? 2) with false in BA by lia. replace (i =? 253) with false in BA by lia. replace (i =? 255) with false in BA by lia. replace (i =? 254) with false in BA by lia. symmetry. exact BA.
  - intros [S1 S2]. rewrite <- (firstn_skipn 32 (normalize mask a)), <- (firstn_skipn 32 (normalize mask b)), PA, PB, S2. f_equal.
    assert (F : forall x, (32 <= length x)%nat -> bytes_ok x -> bytes_ok (firstn 32 x) /\ length (firstn 32 x) = 32%nat) by (intros x L X; split; [apply Forall_firstn'; exact X | rewrite firstn_length; lia]).
    destruct (F (normalize mask a)) as [FA FLA]; [lia | exact NA |]. destruct (F (normalize mask b)) as [FB FLB]; [lia | exact NB |].
    apply le_value_inj; [exact FA | exact FB | congruence |]. pose proof (le_value_range _ FA) as RA. pose proof (le_value_range _ FB) as RB. rewrite FLA in RA. rewrite FLB in RB.
    apply Z.bits_inj'. intros n Hn. destruct (Z_lt_ge_dec n 256) as [L | G].
    + rewrite BA, BB by lia. unfold forced. destruct ((n <=? 2) || (n =? 253) || (n =? 255)) eqn:Q; [reflexivity |]. destruct (n =? 254) eqn:Q2; [reflexivity |]. apply S1. lia.
    + change (256 ^ Z.of_nat 32) with (2 ^ 256) in RA, RB. rewrite <- (Z.mod_small _ _ RA), <- (Z.mod_small _ _ RB). rewrite !Z.mod_pow2_bits_high by lia. reflexivity.
Qed.

(** Exactly when two seeds, or two pairs of entropy and passphrase, give one root key: the hashes agree but for the bits that are fixed. *)
Theorem C109_exact : forall (H : Hashes), hashes_ok ->
  (forall s s', length s = 32%nat -> length s' = 32%nat -> (NewXPrv s = NewXPrv s' <-> same_root (sha512 s) (sha512 s') /\ sha256 (1 :: s) = sha256 (1 :: s'))) /\
  (forall e p e' p', FromBip39Entropy e p = FromBip39Entropy e' p' <-> same_root (pbkdf2_sha512 p e 4096 96) (pbkdf2_sha512 p' e' 4096 96)).
Proof.
  intros H HO. pose proof HO as (H1 & H2 & _ & H4 & _). split.
  - intros s s' L L'. rewrite !NewXPrv_eq by assumption. destruct (H2 s) as [B1 L1]. destruct (H2 s') as [B2 L2]. destruct (H1 (1 :: s)) as [_ C1]. destruct (H1 (1 :: s')) as [_ C2].
    rewrite <- (normalize_same 95) by (try assumption; try lia). split.
    + intros E. apply Ok_inj in E. assert (X : length (normalize 95 (sha512 s)) = length (normalize 95 (sha512 s'))) by (destruct (normalize_ok 95 _ B1 ltac:(lia) (or_introl eq_refl)) as [_ ->]; destruct (normalize_ok 95 _ B2 ltac:(lia) (or_introl eq_refl)) as [_ ->]; congruence).
      destruct (app_eq_app _ _ _ _ E) as (l & [[E1 E2] | [E1 E2]]); rewrite E1, app_length in X; assert (l = []) by (destruct l; [reflexivity | cbn [length] in X; lia]); subst l; rewrite app_nil_r in E1; cbn [app] in E2; auto.
    + intros [E1 E2]. rewrite E1, E2. reflexivity.
  - intros e p e' p'. rewrite !FromBip39_eq by assumption. destruct (H4 p e 4096 96%nat) as [B1 L1]. destruct (H4 p' e' 4096 96%nat) as [B2 L2]. rewrite <- (normalize_same 31) by (try assumption; try lia).
    split; [apply Ok_inj | intros ->; reflexivity].
Qed.
Print Assumptions C109_exact.

(** With the functions of the standards, a passphrase enters only as the key block of HMAC (RFC 2104). *)
Definition key_block (p : bytes) : bytes := let p := if (length p <=? 128)%nat then p else SHA512 p in p ++ repeat 0 (128 - length p).
Lemma key_block_eq p : hmac_key p = key_block p.
Proof. unfold hmac_key, key_block. destruct (Nat.leb_spec (length p) 128), (Nat.ltb_spec 128 (length p)); try lia; reflexivity. Qed.
(** False: passphrases with one key block give one root key, whatever the entropy: a zero byte at the end makes no difference, and a passphrase
    of more than 128 bytes is the same as its SHA-512 value. *)
Theorem C109_refuted : forall e p, let root := @FromBip39Entropy real_hashes e in
  (forall p', key_block p = key_block p' -> root p = root p') /\
  ((length p < 128)%nat -> root (p ++ [0]) = root p) /\ ((128 < length p)%nat -> root (SHA512 p) = root p).
Proof.
  intros e p root. assert (G : forall p p', key_block p = key_block p' -> root p = root p').
  { intros q q' E. unfold root, FromBip39Entropy. cbn [pbkdf2_sha512 real_hashes]. unfold PBKDF2_SHA512, hmac_states. rewrite !key_block_eq, E. reflexivity. }
  split; [intros p'; apply G |]. split; intros L; apply G; unfold key_block.
  - rewrite app_length. cbn [length]. replace (length p + 1 <=? 128)%nat with true by (symmetry; apply Nat.leb_le; lia). replace (length p <=? 128)%nat with true by (symmetry; apply Nat.leb_le; lia).
    cbv zeta. rewrite app_length. cbn [length]. rewrite <- app_assoc. f_equal. change ([0] ++ repeat 0 (128 - (length p + 1))) with (repeat 0 (S (128 - (length p + 1)))). f_equal. lia.
  - assert (X : length (SHA512 p) = 64%nat) by (destruct real_hashes_ok as (_ & H2 & _); exact (proj2 (H2 p))). rewrite X. replace (length p <=? 128)%nat with false by (symmetry; apply Nat.leb_gt; lia). reflexivity.
Qed.
Print Assumptions C109_refuted.
(** For passphrases of up to 128 bytes these are the only ones: one key block means equal up to zero bytes at the end. *)
Theorem C109_passphrase : forall p p', (length p <= 128)%nat -> (length p' <= 128)%nat ->
  (key_block p = key_block p' <-> exists n, p' = p ++ repeat 0 n \/ p = p' ++ repeat 0 n).
Proof.
  assert (G : forall p p', (length p <= length p')%nat -> (length p' <= 128)%nat -> (p ++ repeat 0 (128 - length p) = p' ++ repeat 0 (128 - length p') <-> exists n, p' = p ++ repeat 0 n)).
  { intros p p' L L'. split.
    - intros E. exists (length p' - length p)%nat. pose proof (f_equal (firstn (length p')) E) as F. rewrite firstn_app in F. rewrite (firstn_app (length p') p'), Nat.sub_diag, firstn_all, firstn_O, app_nil_r in F.
      rewrite (firstn_all2 p) in F by exact L. etransitivity; [symmetry; exact F |]. f_equal. replace (128 - length p)%nat with ((length p' - length p) + (128 - length p'))%nat by lia. rewrite repeat_app, firstn_app, repeat_length, Nat.sub_diag, firstn_O, app_nil_r. apply firstn_all2. rewrite repeat_length. lia.
    - intros [n ->]. rewrite app_length, repeat_length in *. rewrite <- app_assoc, <- repeat_app. f_equal. f_equal. lia. }
  intros p p' L L'. unfold key_block. replace (length p <=? 128)%nat with true by (symmetry; apply Nat.leb_le; lia). replace (length p' <=? 128)%nat with true by (symmetry; apply Nat.leb_le; lia). cbv zeta.
  destruct (Nat.le_ge_cases (length p) (length p')) as [C | C].
  - rewrite G by assumption. split; [intros [n E]; exists n; left; exact E |]. intros [n [E | E]]; [exists n; exact E |]. exists 0%nat. cbn [repeat]. rewrite app_nil_r. rewrite E, app_length in C. assert (length (repeat 0 n) = 0%nat) as Z by lia. rewrite E. destruct (repeat 0 n); [rewrite app_nil_r; reflexivity | discriminate Z].
  - split.
    + intros E. symmetry in E. apply G in E; [| assumption | assumption]. destruct E as [n E]. exists n. right. exact E.
    + intros H. symmetry. apply G; [assumption | assumption |]. destruct H as [n [E | E]]; [| exists n; exact E]. exists 0%nat. cbn [repeat]. rewrite app_nil_r. rewrite E, app_length in C. assert (length (repeat 0 n) = 0%nat) as Z by lia. rewrite E. destruct (repeat 0 n); [rewrite app_nil_r; reflexivity | discriminate Z].
Qed.
Print Assumptions C109_passphrase.
Example C109_example : (length (str "secret") < 128)%nat /\ str "secret" ++ [0] <> str "secret" /\ (128 < length (repeat 65 129))%nat /\ key_block (str "secret") <> key_block (str "Secret").
Proof. split; [vm_compute; lia |]. split; [vm_compute; discriminate |]. split; [vm_compute; lia |]. vm_compute. discriminate. Qed.
