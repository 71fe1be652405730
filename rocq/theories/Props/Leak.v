(** C114: signing and deriving leak nothing about the key through branches and memory accesses. *)
From Coq Require Import String.
From Verif.Model Require Import Base Limb EdwardsTable EdwardsCode Edwards Bip32 Leak.
From Verif.Spec Require Import EdSpec Bip32Spec.
From Verif.Proofs Require Import Util Bip32Facts KeyFacts SlideFacts.
From Verif.Props Require Import Bip32.
Open Scope Z_scope. Open Scope list_scope.
Lemma reduce_length x : length (ScReduce x) = 32%nat.
Proof. unfold ScReduce. rewrite map_length. reflexivity. Qed.
#[local] Opaque zmul Ext_ToBytes geMixedAdd Comp_ToExtended Comp_ToProjective Proj_Double Ext_Double Pre_CMove ScReduce ScMulAdd FeNeg base_table.

Lemma tbind_fst {A B} (x : tr A) (f : A -> tr B) : fst (tbind x f) = fst (f (fst x)).
Proof. reflexivity. Qed.
Lemma tbind_snd {A B} (x : tr A) (f : A -> tr B) : snd (tbind x f) = snd x ++ snd (f (fst x)).
Proof. reflexivity. Qed.
Lemma tfold_fst {A B} (f : A -> B -> tr A) (g : A -> B -> A) l : (forall a x, fst (f a x) = g a x) -> forall a, fst (tfold f l a) = fold_left g l a.
Proof. intros E. induction l as [| x l IH]; intros a; [reflexivity |]. cbn [tfold fold_left]. rewrite tbind_fst, E. apply IH. Qed.
Lemma tfold_snd {A B} (f : A -> B -> tr A) (g : B -> list event) l : (forall a x, snd (f a x) = g x) -> forall a, snd (tfold f l a) = flat_map g l.
Proof. intros E. induction l as [| x l IH]; intros a; [reflexivity |]. cbn [tfold flat_map]. rewrite tbind_snd, E, IH. reflexivity. Qed.
Lemma rbind_fst {A B} (x : tr (result A)) (f : A -> tr (result B)) : fst (rbind x f) = bind (fst x) (fun a => fst (f a)).
Proof. unfold rbind. destruct (fst x); reflexivity. Qed.
Lemma bind_ext {A B} (x : result A) (f g : A -> result B) : (forall a, f a = g a) -> bind x f = bind x g.
Proof. intros E. destruct x; cbn [bind]; auto. Qed.
Lemma rbind_ok {A B} (x : tr (result A)) (f : A -> tr (result B)) a : fst x = Ok a -> snd (rbind x f) = snd x ++ snd (f a).
Proof. unfold rbind. intros ->. reflexivity. Qed.

(** ** The instrumented functions compute what the model computes. *)
Lemma select_fst pos b : fst (selectPoint_t pos b) = selectPoint pos b.
Proof.
  unfold selectPoint_t, selectPoint, selectRow. cbv zeta. rewrite tbind_fst. cbn [call fst].
  set (bA := i32 _). rewrite (tfold_fst _ (fun t i => Pre_CMove t (nth i (nth pos base_table []) pre0) (equal bA (i32 (Z.of_nat i + 1))))) by reflexivity. reflexivity.
Qed.
Lemma step_fst e h i : fst (base_step_t e h i) = base_step e h i.
Proof. unfold base_step_t, base_step. rewrite !tbind_fst. cbn [call fst]. rewrite select_fst. reflexivity. Qed.
Lemma digits_fst e : forall i c, fst (signed_digits_t i e c) = signed_digits e c.
Proof.
  induction e as [| x e IH]; intros i c; [reflexivity |]. destruct e as [| y e]; [reflexivity |].
  change (fst (signed_digits_t i (x :: y :: e) c)) with (let x := i8 (x + c) in let c := Z.shiftr (i8 (x + 8)) 4 in i8 (x - i8 (Z.shiftl c 4)) :: fst (signed_digits_t (S i) (y :: e) c)).
  cbv zeta. rewrite IH. reflexivity.
Qed.
Lemma mult_fst a : fst (GeScalarMultBase_t a) = GeScalarMultBase a.
Proof.
  unfold GeScalarMultBase_t. rewrite !tbind_fst. cbn [call fst nibbles_t]. rewrite digits_fst. unfold GeScalarMultBase. cbv zeta.
  rewrite !(tfold_fst _ (base_step (signed_digits (nibbles a) 0))) by (intros; apply step_fst). reflexivity.
Qed.
Lemma public_fst k : fst (MakePublicKey_t k) = MakePublicKey k.
Proof. unfold MakePublicKey_t, MakePublicKey. rewrite rbind_fst. cbn [lift fst]. apply bind_ext. intros s. rewrite tbind_fst. cbn [call fst]. rewrite mult_fst. reflexivity. Qed.
Lemma add_fst is x y : forall c, fst (add_loop_t is x y c) = add_loop is x y c.
Proof.
  induction is as [| i is IH]; intros c; [reflexivity |]. cbn [add_loop_t add_loop]. rewrite tbind_fst, rbind_fst. cbn [lift fst]. apply bind_ext. intros xi. rewrite rbind_fst. cbn [lift fst]. apply bind_ext. intros yi.
  rewrite rbind_fst, IH. apply bind_ext. intros [out cc]. reflexivity.
Qed.
Theorem C114_faithful : forall (H : Hashes) key msg i,
  fst (Sign_t key msg) = Sign key msg /\ fst (Derive_t key i) = Derive key i /\ fst (Public_t key) = Public key.
Proof.
  intros H key msg i. split; [| split].
  - unfold Sign_t, Sign. rewrite rbind_fst, public_fst. apply bind_ext. intros pk. rewrite rbind_fst. cbn [lift fst]. apply bind_ext. intros kr. rewrite tbind_fst. cbn [sha_t fst]. rewrite rbind_fst. cbn [lift fst]. apply bind_ext. intros h.
    cbv zeta. rewrite tbind_fst. cbn [call fst]. rewrite tbind_fst, mult_fst, tbind_fst. cbn [call fst]. rewrite tbind_fst. cbn [sha_t fst]. rewrite tbind_fst. cbn [call fst]. rewrite rbind_fst. cbn [lift fst]. apply bind_ext. intros kl. reflexivity.
  - unfold Derive_t, Derive. rewrite rbind_fst. cbn [lift fst]. apply bind_ext. intros cc. rewrite rbind_fst.
    assert (M : fst (derive_messages_t key i) = derive_messages key i).
    { unfold derive_messages_t, derive_messages. cbv zeta. rewrite tbind_fst. destruct (isHardened i); rewrite rbind_fst; cbn [lift fst]; apply bind_ext; intros k; [reflexivity |]. rewrite rbind_fst, public_fst. apply bind_ext. intros pk. reflexivity. }
    rewrite M. apply bind_ext. intros [zm im]. rewrite !tbind_fst. cbn [hmac_t fst]. rewrite rbind_fst. cbn [lift fst]. apply bind_ext. intros kl. rewrite rbind_fst. cbn [lift fst]. apply bind_ext. intros zl. rewrite rbind_fst.
    assert (A : fst (add28mul8_t kl zl) = add28mul8 kl zl).
    { unfold add28mul8_t, add28mul8. rewrite rbind_fst, add_fst. apply bind_ext. intros [lo c]. rewrite rbind_fst, add_fst. apply bind_ext. intros [hi c']. reflexivity. }
    rewrite A. apply bind_ext. intros left. rewrite rbind_fst. cbn [lift fst]. apply bind_ext. intros kr. rewrite rbind_fst. cbn [lift fst]. apply bind_ext. intros zr. rewrite rbind_fst.
    assert (A2 : fst (add256bits_t kr zr) = add256bits kr zr). { unfold add256bits_t, add256bits. rewrite rbind_fst, add_fst. apply bind_ext. intros [o c]. reflexivity. }
    rewrite A2. apply bind_ext. intros right. rewrite rbind_fst. cbn [lift fst]. apply bind_ext. intros c. reflexivity.
  - unfold Public_t, Public, publicKey. rewrite rbind_fst. cbn [lift fst]. destruct (extendedPrivateKey key) as [k | |]; cbn [bind]; try reflexivity. rewrite rbind_fst, public_fst. apply bind_ext. intros pk. rewrite rbind_fst. cbn [lift fst]. apply bind_ext. intros cc. reflexivity.
Qed.
Print Assumptions C114_faithful.

(** ** Their events *)
Definition select_events (pos : nat) : list event := flat_map (fun i => [ETable (Z.of_nat pos) (Z.of_nat i); ECall "CMove"]) (seq 0 8) ++ [ECall "CMove"].
Lemma select_snd pos b : snd (selectPoint_t pos b) = select_events pos.
Proof. unfold selectPoint_t. cbv zeta. rewrite tbind_snd. rewrite (tfold_snd _ (fun i => [ETable (Z.of_nat pos) (Z.of_nat i); ECall "CMove"])) by reflexivity. reflexivity. Qed.
Definition step_events (i : nat) : list event := EIndex i :: select_events (i / 2) ++ [ECall "geMixedAdd"; ECall "ToExtended"].
Lemma step_snd e h i : snd (base_step_t e h i) = step_events i.
Proof. unfold base_step_t. rewrite !tbind_snd, select_snd. reflexivity. Qed.
Lemma digits_snd e : forall i c, snd (signed_digits_t i e c) = map EIndex (seq i (length e)).
Proof.
  induction e as [| x e IH]; intros i c; [reflexivity |]. destruct e as [| y e]; [reflexivity |].
  change (snd (signed_digits_t i (x :: y :: e) c)) with (EIndex i :: snd (signed_digits_t (S i) (y :: e) (Z.shiftr (i8 (i8 (x + c) + 8)) 4)) ++ []). rewrite IH, app_nil_r. reflexivity.
Qed.
Lemma nibbles_length a : length (nibbles a) = (2 * length a)%nat.
Proof. induction a as [| x a IH]; [reflexivity |]. unfold nibbles in *. cbn [flat_map length app]. rewrite IH. lia. Qed.
Definition mult_events (n : nat) : list event :=
  flat_map (fun i => [EIndex i; EIndex (2 * i); EIndex (2 * i + 1)]) (seq 0 n) ++ map EIndex (seq 0 (2 * n)) ++
  flat_map step_events odd_indices ++ ECall "four doublings" :: flat_map step_events even_indices.
Lemma mult_snd a : snd (GeScalarMultBase_t a) = mult_events (length a).
Proof.
  unfold GeScalarMultBase_t. rewrite !tbind_snd. cbn [call fst snd nibbles_t]. rewrite digits_snd, nibbles_length. rewrite !(tfold_snd _ step_events) by (intros; apply step_snd). reflexivity.
Qed.
Definition key_events : list event := mult_events 32 ++ [ECall "ToBytes"].
Lemma copy_length (d s : bytes) lo hi : (lo <= hi)%nat -> (hi <= length d)%nat -> length (copy_at d lo hi s) = length d.
Proof. intros A B. unfold copy_at. rewrite !app_length, !firstn_length, skipn_length. lia. Qed.
Lemma public_snd k : (32 <= length k)%nat -> snd (MakePublicKey_t k) = key_events.
Proof.
  intros L. unfold MakePublicKey_t. rewrite (rbind_ok _ _ (firstn 32 k)) by (cbn [lift fst]; apply slice_0; exact L). cbn [lift snd app]. cbv zeta. rewrite tbind_snd, mult_snd.
  rewrite copy_length by (rewrite ?repeat_length; unfold PublicKeyLen; lia). rewrite repeat_length. reflexivity.
Qed.
Lemma index_in {A} (l : list A) i : (i < length l)%nat -> exists v, index l i = Ok v.
Proof. intros L. unfold index. destruct (nth_error l i) eqn:E; [eauto |]. apply nth_error_None in E. lia. Qed.
Lemma add_snd is x y : (forall i, In i is -> (i < length x)%nat /\ exists v, y i = Ok v) -> forall c, snd (add_loop_t is x y c) = map EIndex is /\ exists r, fst (add_loop_t is x y c) = Ok r.
Proof.
  induction is as [| i is IH]; intros A c; [split; [reflexivity | eexists; reflexivity] |]. destruct (A i (or_introl eq_refl)) as [L [v V]]. destruct (index_in x i L) as [u U].
  cbn [add_loop_t]. rewrite tbind_snd, tbind_fst. rewrite (rbind_ok _ _ u) by exact U. rewrite rbind_fst. cbn [lift fst snd emit app]. rewrite U. cbn [bind]. rewrite (rbind_ok _ _ v) by exact V. rewrite rbind_fst. cbn [lift fst snd app]. rewrite V. cbn [bind]. cbv zeta.
  set (c' := Z.shiftr _ 8). destruct (IH (fun j J => A j (or_intror J)) c') as [S1 [[o cc] F1]]. rewrite (rbind_ok _ _ (o, cc)) by exact F1. rewrite rbind_fst, F1, S1. cbn [bind lift fst snd map]. rewrite app_nil_r. split; [reflexivity | eexists; reflexivity].
Qed.
Lemma add28_snd x y : length x = 32%nat -> length y = 32%nat -> snd (add28mul8_t x y) = map EIndex (seq 0 28) ++ map EIndex (seq 28 4).
Proof.
  intros X Y. unfold add28mul8_t. destruct (add_snd (seq 0 28) x (fun i => do yi <- index y i; Ok (u16 (Z.shiftl (u16 yi) 3)))) with (c := 0) as [S1 [[lo c] F1]].
  { intros i I. apply in_seq in I. split; [lia |]. destruct (index_in y i ltac:(lia)) as [v ->]. eexists. reflexivity. }
  rewrite (rbind_ok _ _ (lo, c)) by exact F1. rewrite S1. f_equal. destruct (add_snd (seq 28 4) x (fun _ => Ok 0)) with (c := c) as [S2 [[hi c'] F2]]. { intros i I. apply in_seq in I. split; [lia | eauto]. }
  rewrite (rbind_ok _ _ (hi, c')) by exact F2. rewrite S2. cbn [lift snd]. apply app_nil_r.
Qed.
Lemma add256_snd x y : length x = 32%nat -> length y = 32%nat -> snd (add256bits_t x y) = map EIndex (seq 0 32).
Proof.
  intros X Y. unfold add256bits_t. destruct (add_snd (seq 0 32) x (fun i => do yi <- index y i; Ok (u16 yi))) with (c := 0) as [S1 [[o c] F1]].
  { intros i I. apply in_seq in I. split; [lia |]. destruct (index_in y i ltac:(lia)) as [v ->]. eexists. reflexivity. }
  rewrite (rbind_ok _ _ (o, c)) by exact F1. rewrite S1. cbn [lift snd]. apply app_nil_r.
Qed.

(** All 96-byte keys give the same events: a list that depends on the length of the message only ... *)
Definition sign_events (n : nat) : list event :=
  key_events ++ EHash "sha512" [32 + n]%nat :: ECall "ScReduce" :: mult_events 32 ++ [ECall "ToBytes"; EHash "sha512" [64 + n]%nat; ECall "ScReduce"; ECall "ScMulAdd"].
Theorem C114_sign : forall (H : Hashes) key msg, hashes_ok -> key96 key -> snd (Sign_t key msg) = sign_events (length msg).
Proof.
  intros H key msg HO [B L]. unfold Sign_t. destruct (MakePublicKey key) as [pk | |] eqn:P.
  2, 3: exfalso; unfold MakePublicKey in P; rewrite slice_0 in P by lia; discriminate.
  rewrite (rbind_ok _ _ pk) by (rewrite public_fst; exact P). rewrite public_snd by lia. unfold sign_events. f_equal.
  rewrite (rbind_ok _ _ (firstn 32 (skipn 32 key))) by (cbn [lift fst]; apply slice_ok; lia). cbn [lift snd app]. rewrite tbind_snd. cbn [sha_t fst snd app].
  assert (LK : length (firstn 32 (skipn 32 key)) = 32%nat) by (rewrite firstn_length, skipn_length; lia). rewrite app_length, LK. f_equal.
  destruct HO as (_ & S5 & _). set (h := sha512 _). assert (LH : length h = 64%nat) by apply S5. clearbody h. rewrite (rbind_ok _ _ (firstn 64 h)) by (cbn [lift fst]; apply slice_0; lia). cbn [lift snd app]. cbv zeta. rewrite tbind_snd. cbn [call fst snd app]. f_equal.
  rewrite tbind_snd, mult_snd. rewrite reduce_length. f_equal.
  set (p := fst (GeScalarMultBase_t _)). clearbody p. rewrite tbind_snd. cbn [call fst snd app]. f_equal. rewrite tbind_snd. cbn [sha_t fst snd app]. rewrite app_length.
  set (s0 := copy_at (repeat 0 SignatureLength) 0 64 _). assert (L0 : length s0 = 64%nat) by (unfold s0; apply copy_length; unfold SignatureLength; [lia | apply Nat.le_refl]). set (s1 := copy_at s0 _ _ _). assert (L1 : length s1 = 64%nat) by (unfold s1; rewrite copy_length; [exact L0 | lia | lia]). set (s2 := copy_at s1 _ _ _). assert (L2 : length s2 = 64%nat) by (unfold s2; rewrite copy_length; [exact L1 | lia | lia]). unfold bytes in *. rewrite L2. f_equal.
  rewrite tbind_snd. cbn [call fst snd app]. f_equal. rewrite (rbind_ok _ _ (firstn 32 key)) by (cbn [lift fst]; apply slice_0; lia). cbn [lift snd app]. reflexivity.
Qed.
Print Assumptions C114_sign.
(** ... and of the index only. *)
Definition derive_events (i : Z) : list event :=
  EBranch (isHardened i) :: (if isHardened i then [] else key_events) ++
  (let n := if isHardened i then 69%nat else 37%nat in [EHash "hmac" [32%nat; n]; EHash "hmac" [32%nat; n]]) ++
  (map EIndex (seq 0 28) ++ map EIndex (seq 28 4)) ++ map EIndex (seq 0 32).
Theorem C114_derive : forall (H : Hashes) key i, hashes_ok -> key96 key -> snd (Derive_t key i) = derive_events i.
Proof.
  intros H key i HO K. pose proof K as [B L]. unfold Derive_t. rewrite (rbind_ok _ _ (skipn 64 key)) by (cbn [lift fst]; unfold XPrv_ChainCode; rewrite slice_ok by lia; rewrite firstn_all2 by (rewrite skipn_length; lia); reflexivity).
  cbn [lift snd app]. assert (LC : length (skipn 64 key) = 32%nat) by (rewrite skipn_length; lia). set (cc := skipn 64 key) in *. clearbody cc.
  assert (M : exists zm im, fst (derive_messages_t key i) = Ok (zm, im) /\ snd (derive_messages_t key i) = EBranch (isHardened i) :: (if isHardened i then [] else key_events) /\
    length zm = (if isHardened i then 69%nat else 37%nat) /\ length im = (if isHardened i then 69%nat else 37%nat)).
  { assert (EK : extendedPrivateKey key = Ok (firstn 64 key)) by (apply slice_0; lia). assert (L64 : length (firstn 64 key) = 64%nat) by (rewrite firstn_length; lia).
    unfold derive_messages_t. cbv zeta. rewrite tbind_fst, tbind_snd. cbn [emit snd]. destruct (isHardened i).
    - rewrite (rbind_ok _ _ (firstn 64 key)) by exact EK. rewrite rbind_fst. cbn [lift fst snd]. rewrite EK. cbn [bind fst]. do 2 eexists. split; [reflexivity |]. split; [reflexivity |]. rewrite !app_length, L64. split; reflexivity.
    - rewrite (rbind_ok _ _ (firstn 64 key)) by exact EK. rewrite rbind_fst. cbn [lift fst snd]. rewrite EK. cbn [bind]. rewrite rbind_fst, public_fst.
      assert (PK : exists pk, MakePublicKey (firstn 64 key) = Ok pk /\ length pk = 32%nat).
      { destruct (pk_of_ok key K) as [_ LP]. exists (pk_of key). split; [| exact LP]. pose proof (publicKey_eq key K) as PE. unfold publicKey in PE. rewrite EK in PE. cbn [bind] in PE. exact PE. }
      destruct PK as (pk & PE & LP). rewrite (rbind_ok _ _ pk) by (rewrite public_fst; exact PE). rewrite PE, public_snd by lia. cbn [bind lift fst snd app]. do 2 eexists. split; [reflexivity |]. split; [rewrite app_nil_r; reflexivity |]. cbn [length]. rewrite !app_length, LP. split; reflexivity. }
  destruct M as (zm & im & F & S & LZ & LI). rewrite (rbind_ok _ _ (zm, im)) by exact F. rewrite S. unfold derive_events. cbn [app]. f_equal. f_equal.
  rewrite tbind_snd. cbn [hmac_t fst snd app]. rewrite LC, LZ. cbv zeta. f_equal. rewrite tbind_snd. cbn [hmac_t fst snd app]. rewrite LC, LI. f_equal.
  destruct HO as (_ & _ & S6 & _). set (zo := hmac_sha512 cc zm). set (io := hmac_sha512 cc im). assert (L1 : length zo = 64%nat) by apply S6. assert (L2 : length io = 64%nat) by apply S6. clearbody zo io.
  rewrite (rbind_ok _ _ (firstn 32 key)) by (cbn [lift fst]; apply slice_0; lia). cbn [lift snd app]. rewrite (rbind_ok _ _ (firstn 32 zo)) by (cbn [lift fst]; apply slice_0; lia). cbn [lift snd app].
  assert (F32 : forall l : bytes, (32 <= length l)%nat -> length (firstn 32 l) = 32%nat) by (intros l LL; rewrite firstn_length; lia).
  assert (R1 : exists left, fst (add28mul8_t (firstn 32 key) (firstn 32 zo)) = Ok left).
  { unfold add28mul8_t. rewrite rbind_fst. edestruct (add_snd (seq 0 28) (firstn 32 key) (fun i => do yi <- index (firstn 32 zo) i; Ok (u16 (Z.shiftl (u16 yi) 3)))) with (c := 0) as [_ [[lo c] ->]].
    { intros j J. apply in_seq in J. rewrite F32 by lia. split; [lia |]. destruct (index_in (firstn 32 zo) j ltac:(rewrite F32 by lia; lia)) as [v ->]. eexists. reflexivity. }
    cbn [bind]. rewrite rbind_fst. edestruct (add_snd (seq 28 4) (firstn 32 key) (fun _ => Ok 0)) with (c := c) as [_ [[hi c'] ->]]. { intros j J. apply in_seq in J. rewrite F32 by lia. split; [lia | eauto]. }
    eexists. reflexivity. }
  destruct R1 as [left R1]. rewrite (rbind_ok _ _ left) by exact R1. rewrite add28_snd by (apply F32; lia). f_equal.
  rewrite (rbind_ok _ _ (firstn 32 (skipn 32 key))) by (cbn [lift fst]; apply slice_ok; lia). cbn [lift snd app]. rewrite (rbind_ok _ _ (firstn 32 (skipn 32 zo))) by (cbn [lift fst]; apply slice_ok; lia). cbn [lift snd app].
  assert (G1 : length (firstn 32 (skipn 32 key)) = 32%nat) by (apply F32; rewrite skipn_length; lia). assert (G2 : length (firstn 32 (skipn 32 zo)) = 32%nat) by (apply F32; rewrite skipn_length; lia).
  set (a := firstn 32 (skipn 32 key)) in *. set (z := firstn 32 (skipn 32 zo)) in *. clearbody a z.
  assert (R2 : exists right, fst (add256bits_t a z) = Ok right).
  { unfold add256bits_t. rewrite rbind_fst. edestruct (add_snd (seq 0 32) a (fun i => do yi <- index z i; Ok (u16 yi))) with (c := 0) as [_ [[o c] ->]].
    { intros j J. apply in_seq in J. split; [lia |]. destruct (index_in z j ltac:(lia)) as [v ->]. eexists. reflexivity. }
    eexists. reflexivity. }
  destruct R2 as [right R2]. rewrite (rbind_ok _ _ right) by exact R2. rewrite add256_snd by assumption. rewrite <- (app_nil_r (map EIndex (seq 0 32))) at 2. f_equal.
  rewrite (rbind_ok _ _ (skipn 32 io)) by (cbn [lift fst]; rewrite slice_ok by lia; rewrite firstn_all2 by (rewrite skipn_length; lia); reflexivity). reflexivity.
Qed.
Print Assumptions C114_derive.
Theorem C114_public : forall (H : Hashes) key, key96 key -> snd (Public_t key) = key_events.
Proof.
  intros H key K. pose proof K as [B L]. unfold Public_t. rewrite (rbind_ok _ _ (firstn 64 key)) by (apply slice_0; lia). cbn [lift snd app]. pose proof (publicKey_eq key K) as PE. unfold publicKey in PE.
  assert (EK : extendedPrivateKey key = Ok (firstn 64 key)) by (apply slice_0; lia). rewrite EK in PE. cbn [bind] in PE. rewrite (rbind_ok _ _ (pk_of key)) by (rewrite public_fst; exact PE). rewrite public_snd by (rewrite firstn_length; lia).
  rewrite (rbind_ok _ _ (skipn 64 key)) by (cbn [lift fst]; unfold XPrv_ChainCode; rewrite slice_ok by lia; rewrite firstn_all2 by (rewrite skipn_length; lia); reflexivity). cbn [lift snd app]. apply app_nil_r.
Qed.
Print Assumptions C114_public.

(** So two keys, and two hash functions, cannot be told apart. *)
Theorem C114_indistinguishable : forall (H H' : Hashes) key key' msg msg' i, @hashes_ok H -> @hashes_ok H' -> key96 key -> key96 key' -> length msg = length msg' ->
  snd (@Sign_t H key msg) = snd (@Sign_t H' key' msg') /\ snd (@Derive_t H key i) = snd (@Derive_t H' key' i) /\ snd (Public_t key) = snd (Public_t key').
Proof.
  intros H H' key key' msg msg' i HO HO' K K' L. rewrite (C114_sign H) by assumption. rewrite (C114_sign H') by assumption. rewrite (C114_derive H) by assumption. rewrite (C114_derive H') by assumption. rewrite !C114_public by assumption. rewrite L. auto.
Qed.
Print Assumptions C114_indistinguishable.
(** The other multiplication of the package, which nothing here calls, does show its scalars: two runs with the same events had the
    same two scalars. *)
Definition digit_events (k d : Z) : list event := EBranch (0 <? d) :: (if 0 <? d then [ETable k (Z.quot d 2)] else EBranch (d <? 0) :: (if d <? 0 then [ETable k (Z.quot (- d) 2)] else [])).
Lemma quot_inj d d' : 0 < d -> 0 < d' -> d mod 2 = 1 -> d' mod 2 = 1 -> Z.quot d 2 = Z.quot d' 2 -> d = d'.
Proof. intros A B C D E. rewrite !Z.quot_div_nonneg in E by lia. pose proof (Z.div_mod d 2). pose proof (Z.div_mod d' 2). lia. Qed.
Lemma odd_opp d : d mod 2 = 1 -> (- d) mod 2 = 1.
Proof. intros E. symmetry. apply (Z.mod_unique_pos _ _ (- (d / 2) - 1)); [lia |]. pose proof (Z.div_mod d 2). lia. Qed.
Lemma digit_events_inj k d d' t t' : digit_ok d -> digit_ok d' -> digit_events k d ++ t = digit_events k d' ++ t' -> d = d' /\ t = t'.
Proof.
  intros [_ O] [_ O'] E. unfold digit_events in E.
  destruct (Z.ltb_spec 0 d), (Z.ltb_spec 0 d'); cbn [app] in E; try discriminate E.
  - assert (Q : Z.quot d 2 = Z.quot d' 2) by congruence. assert (t = t') by congruence. split; [apply quot_inj; lia | assumption].
  - destruct (Z.ltb_spec d 0), (Z.ltb_spec d' 0); cbn [app] in E; try discriminate E.
    + assert (Q : Z.quot (- d) 2 = Z.quot (- d') 2) by congruence. assert (t = t') by congruence. split; [| assumption]. enough (- d = - d') by lia. apply quot_inj; try lia; apply odd_opp; lia.
    + assert (t = t') by congruence. split; [lia | assumption].
Qed.
Lemma vartime_snd n : forall Ai a b r, snd (vartime_loop_t (S n) Ai a b r) = digit_events 0 (get a n) ++ digit_events 1 (get b n) ++ snd (vartime_loop_t n Ai a b (vartime_step Ai (get a n) (get b n) r)).
Proof.
  intros Ai a b r. cbn [vartime_loop_t]. rewrite tbind_snd. cbn [vartime_step_t snd fst]. unfold vartime_step_t. cbn [snd fst]. rewrite app_assoc. f_equal.
Qed.
Lemma vartime_inj n : forall n' Ai Ai' a a' b b' r r', Forall digit_ok a -> Forall digit_ok a' -> Forall digit_ok b -> Forall digit_ok b' ->
  snd (vartime_loop_t n Ai a b r) = snd (vartime_loop_t n' Ai' a' b' r') -> n = n' /\ forall i, (i < n)%nat -> get a i = get a' i /\ get b i = get b' i.
Proof.
  assert (G : forall l i, Forall digit_ok l -> digit_ok (get l i)).
  { intros l i F. unfold get. destruct (lt_dec i (length l)) as [L | L]; [apply (proj1 (Forall_nth _ l) F); exact L | rewrite nth_overflow by lia; split; [lia | left; reflexivity]]. }
  induction n as [| n IH]; intros n' Ai Ai' a a' b b' r r' Fa Fa' Fb Fb' E.
  - destruct n'; [split; [reflexivity | intros; lia] |]. rewrite vartime_snd in E. discriminate E.
  - destruct n'; [rewrite vartime_snd in E; discriminate E |]. rewrite !vartime_snd in E.
    apply digit_events_inj in E; [| apply G; assumption | apply G; assumption]. destruct E as [Da E].
    apply digit_events_inj in E; [| apply G; assumption | apply G; assumption]. destruct E as [Db E].
    destruct (IH n' Ai Ai' a a' b b' _ _ Fa Fa' Fb Fb' E) as [-> X]. split; [reflexivity |]. intros i L. destruct (Nat.eq_dec i n') as [-> | N]; [auto | apply X; lia].
Qed.
Lemma top_zero n a b : forall i, (top_index n a b <= i < n)%nat -> get a i = 0 /\ get b i = 0.
Proof.
  induction n as [| n IH]; intros i L; [lia |]. cbn [top_index] in L. destruct (negb (get a n =? 0) || negb (get b n =? 0)) eqn:E; [lia |].
  apply Bool.orb_false_iff in E. destruct E as [E1 E2]. apply Bool.negb_false_iff, Z.eqb_eq in E1. apply Bool.negb_false_iff, Z.eqb_eq in E2. destruct (Nat.eq_dec i n) as [-> | N]; [auto | apply IH; lia].
Qed.
Lemma slide_inj a a' : bytes_len 32 a -> bytes_len 32 a' -> slide a = slide a' -> a = a'.
Proof.
  intros [Ba La] [Ba' La'] E. destruct (slide_value a Ba La) as ((k & V) & _). destruct (slide_value a' Ba' La') as ((k' & V') & _). rewrite E in V.
  pose proof (RadixFacts.le_value_range _ Ba) as R. pose proof (RadixFacts.le_value_range _ Ba') as R'. rewrite La in R. rewrite La' in R'. change (256 ^ Z.of_nat 32) with (2 ^ 256) in R, R'.
  apply RadixFacts.le_value_inj; [assumption | assumption | lia |]. rewrite V in V'. set (x := le_value a) in *. set (y := le_value a') in *. clearbody x y. clear - V' R R'. revert V' R R'. generalize (2 ^ 256). intros M V R R'. assert (k = k') by nia. subst. lia.
Qed.
Lemma vartime_lists N Ai Ai' x x' y y' r r' : Forall digit_ok x -> Forall digit_ok x' -> Forall digit_ok y -> Forall digit_ok y' -> length x = N -> length x' = N -> length y = N -> length y' = N ->
  snd (vartime_loop_t (top_index N x y) Ai x y r) = snd (vartime_loop_t (top_index N x' y') Ai' x' y' r') -> x = x' /\ y = y'.
Proof.
  intros Fa Fa' Fb Fb' La La' Lb Lb' E. destruct (vartime_inj _ _ _ _ _ _ _ _ _ _ Fa Fa' Fb Fb' E) as [T X]. clear E.
  assert (Y : forall i, (i < N)%nat -> get x i = get x' i /\ get y i = get y' i).
  { intros i L. destruct (lt_dec i (top_index N x y)) as [M | M]; [apply X; exact M |].
    destruct (top_zero N x y i ltac:(lia)) as [-> ->]. destruct (top_zero N x' y' i ltac:(lia)) as [-> ->]. auto. }
  split; apply (nth_ext _ _ 0 0); try lia; intros i L; apply Y; lia.
Qed.
Lemma vartime_unfold a A b : GeDoubleScalarMultVartime_t a A b =
  vartime_loop_t (top_index 256 (slide a) (slide b)) (odd_multiples 7 (Comp_ToExtended (Ext_Double A)) (Ext_ToCached A)) (slide a) (slide b) Proj_Zero.
Proof. unfold GeDoubleScalarMultVartime_t. cbv zeta. reflexivity. Qed.
Theorem C114_vartime : forall a a' b b' A A', bytes_len 32 a -> bytes_len 32 a' -> bytes_len 32 b -> bytes_len 32 b' ->
  snd (GeDoubleScalarMultVartime_t a A b) = snd (GeDoubleScalarMultVartime_t a' A' b') -> a = a' /\ b = b'.
Proof.
  intros a a' b b' A A' Ka Ka' Kb Kb' E.
  pose proof (slide_value a (proj1 Ka) (proj2 Ka)) as (_ & _ & Fa & La). pose proof (slide_value a' (proj1 Ka') (proj2 Ka')) as (_ & _ & Fa' & La').
  pose proof (slide_value b (proj1 Kb) (proj2 Kb)) as (_ & _ & Fb & Lb). pose proof (slide_value b' (proj1 Kb') (proj2 Kb')) as (_ & _ & Fb' & Lb').
  rewrite !vartime_unfold in E. destruct (vartime_lists 256 _ _ _ _ _ _ _ _ Fa Fa' Fb Fb' La La' Lb Lb' E) as [Za Zb]. split; apply slide_inj; assumption.
Qed.
Print Assumptions C114_vartime.
Example C114_example : let k := repeat 77 96 in let k' := repeat 200 96 in
  key96 k /\ key96 k' /\ @hashes_ok toy_hashes /\ snd (@Sign_t toy_hashes k (repeat 1 5)) = snd (@Sign_t toy_hashes k' (repeat 2 5)) /\
  count_occ Bool.bool_dec (map (fun e => match e with ETable _ _ => true | _ => false end) (sign_events 5)) true = (2 * 64 * 8)%nat.
Proof.
  intros k k'. assert (K : key96 k) by (split; [apply Forall_forall; intros x I; apply repeat_spec in I; subst x; unfold is_byte; lia | reflexivity]).
  assert (K' : key96 k') by (split; [apply Forall_forall; intros x I; apply repeat_spec in I; subst x; unfold is_byte; lia | reflexivity]).
  split; [exact K |]. split; [exact K' |]. split; [exact toy_hashes_ok |]. split; [| reflexivity].
  exact (proj1 (C114_indistinguishable toy_hashes toy_hashes k k' (repeat 1 5) (repeat 2 5) 0 toy_hashes_ok toy_hashes_ok K K' eq_refl)).
Qed.
