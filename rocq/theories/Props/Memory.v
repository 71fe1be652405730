(** C88, C89, C90: values that share memory with what they were made from. *)
From Verif.Model Require Import Base Bech32 Hex Base58 Network Address Bip32 Memory.
From Verif.Spec Require Import CborSpec AddressSpec.
From Verif.Proofs Require Import Util AddressFacts MemoryFacts.

(** What a slice can reach in a state of the memory. *)
Definition reach (m : Memory) (s : Slice) : list Z := skipn (sl_from s) (nth (sl_array s) m []).
(** The number of hash bytes of an address: one credential, or two. *)
Definition hash_bytes (a : Address) : nat := match a with ABase _ => 56%nat | AByron _ => 0%nat | _ => 28%nat end.

(** The parser over memory is the parser of the other properties. *)
Theorem C88_parse : forall m data, inside m data ->
  match NewAddressFromBytes_mem m data with
  | Ok a => NewAddressFromBytes (seen m data) (behind m data) = Ok (addr_now m a)
  | Err e => NewAddressFromBytes (seen m data) (behind m data) = Err e
  | Panic => NewAddressFromBytes (seen m data) (behind m data) = Panic
  end.
Proof. intros m data I. pose proof (parse_now m data I) as P. destruct (NewAddressFromBytes_mem m data); cbn [now] in P; symmetry; exact P. Qed.
Print Assumptions C88_parse.

Lemma reach_avail m s : reach m s = seen m s ++ behind m s.
Proof. symmetry. apply seen_behind. Qed.

Lemma bytes_now m m' data a : same_arrays m m' -> NewAddressFromBytes_mem m data = Ok a -> ~ is_byron (addr_now m a) ->
  exists h post, hash_bytes (addr_now m' a) = hash_bytes (addr_now m a) /\ (1 + hash_bytes (addr_now m a) <= length (reach m data))%nat /\
    addr_bytes (addr_now m a) = h :: firstn (hash_bytes (addr_now m a)) (skipn 1 (reach m data)) ++ post /\
    addr_bytes (addr_now m' a) = h :: firstn (hash_bytes (addr_now m a)) (skipn 1 (reach m' data)) ++ post.
Proof.
  intros S P N. apply parse_parsed in P as (h & _ & P).
  assert (L : forall pos, (pos + 28 <= length (reach m data))%nat -> length (firstn 28 (skipn pos (reach m data))) = 28%nat /\ length (firstn 28 (skipn pos (reach m' data))) = 28%nat).
  { intros pos H. unfold reach in *. rewrite skipn_length in H. rewrite !firstn_length, !skipn_length, (same_length m m') by exact S. lia. }
  destruct P as [Le | Le | Le | p Le | b]; [| | | | destruct (N I)]; rewrite <- reach_avail in Le; clear N; cbn [addr_now hash_bytes addr_bytes]; rewrite !cred_at_now, <- !reach_avail.
  - destruct (L 1%nat ltac:(lia)) as [L1 L1'], (L 29%nat ltac:(lia)) as [L2 L2'].
    rewrite !base_bytes_28 by (cbn [ba_pay ba_stake Payload]; assumption). cbn [ba_net ba_pay ba_stake Payload Kind]. do 2 eexists. split; [reflexivity |]. split; [exact Le |].
    change 56%nat with (28 + 28)%nat. rewrite !firstn_plus, !skipn_add. change (1 + 28)%nat with 29%nat. split; [rewrite app_nil_r; reflexivity | rewrite app_nil_r; reflexivity].
  - destruct (L 1%nat ltac:(lia)) as [L1 L1']. rewrite !enterprise_bytes_28 by (cbn [ea_pay Payload]; assumption). cbn [ea_net ea_pay Payload Kind].
    do 2 eexists. split; [reflexivity |]. split; [exact Le |]. split; [rewrite app_nil_r; reflexivity | rewrite app_nil_r; reflexivity].
  - destruct (L 1%nat ltac:(lia)) as [L1 L1']. rewrite !reward_bytes_28 by (cbn [ra_stake Payload]; assumption). cbn [ra_net ra_stake Payload Kind].
    do 2 eexists. split; [reflexivity |]. split; [exact Le |]. split; [rewrite app_nil_r; reflexivity | rewrite app_nil_r; reflexivity].
  - unfold pointer_bytes. cbn [pa_net pa_pay pa_ptr Payload Kind app]. do 2 eexists. split; [reflexivity |]. split; [exact Le |]. split; reflexivity.
Qed.

(** C88. Full statement: [addr_now m' a = addr_now m a] for every address parsed from a slice and every later state of the memory.
    Exactly what the address is later: its header and what follows the hashes are kept, its hashes are what the array now holds. *)
Theorem C88_exact : forall m m' data a, inside m data -> same_arrays m m' -> NewAddressFromBytes_mem m data = Ok a -> ~ is_byron (addr_now m a) ->
  (let n := hash_bytes (addr_now m a) in
   addr_bytes (addr_now m' a) = firstn 1 (addr_bytes (addr_now m a)) ++ firstn n (skipn 1 (reach m' data)) ++ skipn (1 + n) (addr_bytes (addr_now m a))) /\
  (addr_bytes (addr_now m' a) = addr_bytes (addr_now m a) <->
   forall i, (1 <= i <= hash_bytes (addr_now m a))%nat -> nth i (reach m' data) 0 = nth i (reach m data) 0).
Proof.
  intros m m' data a I S P N. destruct (bytes_now m m' data a S P N) as (h & post & _ & Le & E & E').
  set (n := hash_bytes (addr_now m a)) in *. assert (Lr : length (reach m' data) = length (reach m data)) by (unfold reach; rewrite !skipn_length, (same_length m m') by exact S; reflexivity).
  assert (Ln : length (firstn n (skipn 1 (reach m data))) = n) by (rewrite firstn_length, skipn_length; lia).
  assert (Ln' : length (firstn n (skipn 1 (reach m' data))) = n) by (rewrite firstn_length, skipn_length; lia). split.
  - cbv zeta. rewrite E, E'. revert Ln Ln'. generalize (firstn n (skipn 1 (reach m data))) (firstn n (skipn 1 (reach m' data))). intros F F' Ln Ln'.
    cbn [firstn app skipn Nat.add]. f_equal. f_equal. rewrite skipn_app, Ln, Nat.sub_diag. rewrite <- Ln. rewrite skipn_all. reflexivity.
  - rewrite E, E'. split.
    + intros H i Hi. apply (f_equal (@tl Z)) in H. unfold tl in H. apply app_inv_tail in H.
      apply (f_equal (fun l => nth (i - 1) l 0)) in H. rewrite !nth_firstn_lt, !nth_skipn_add in H by lia. replace (1 + (i - 1))%nat with i in H by lia. exact H.
    + intros H. f_equal. f_equal. apply (list_ext 0); [lia |]. intros i Hi. rewrite !nth_firstn_lt, !nth_skipn_add by lia. apply H. lia.
Qed.
Print Assumptions C88_exact.

(** Any write to a hash byte of the buffer changes the address parsed from it before. *)
Theorem C88_refuted : forall m data a i v m', inside m data -> NewAddressFromBytes_mem m data = Ok a -> ~ is_byron (addr_now m a) ->
  (1 <= i <= hash_bytes (addr_now m a))%nat -> v <> nth i (seen m data) 0 -> store m data i v = Ok m' ->
  addr_bytes (addr_now m' a) <> addr_bytes (addr_now m a).
Proof.
  intros m data a i v m' I P N Hi Hv W E. destruct (store_spec m data i v m' I W) as (Li & S & V).
  pose proof (proj1 (proj2 (C88_exact m m' data a I S P N)) E i Hi) as E'. clear E. rename E' into E. apply Hv. unfold seen. rewrite nth_firstn_lt by exact Li. unfold reach in E. rewrite !nth_skipn_add, V, !Nat.eqb_refl in E. cbn [andb] in E.
  rewrite nth_skipn_add. exact E.
Qed.
Print Assumptions C88_refuted.

(** A buffer used twice: once it holds a second address with the same header, the first address has become the second. *)
Theorem C88_reuse_refuted : forall m m' data a b, inside m data -> same_arrays m m' ->
  NewAddressFromBytes_mem m data = Ok a -> NewAddressFromBytes_mem m' data = Ok b ->
  ~ is_byron (addr_now m a) -> ~ is_pointer (addr_now m a) -> nth 0 (seen m' data) 0 = nth 0 (seen m data) 0 ->
  addr_now m' a = addr_now m' b.
Proof.
  intros m m' data a b I S A B N Np H. f_equal. revert A B. unfold NewAddressFromBytes_mem.
  destruct (index (seen m data) 0) as [h | |] eqn:X; [| discriminate | discriminate]. destruct (index (seen m' data) 0) as [h' | |] eqn:X'; [| discriminate | discriminate].
  assert (h' = h).
  { unfold index in X, X'. destruct (nth_error (seen m data) 0) eqn:F; [| discriminate]. destruct (nth_error (seen m' data) 0) eqn:F'; [| discriminate].
    injection X as <-. injection X' as <-. rewrite <- (nth_error_nth _ _ 0 F), <- (nth_error_nth _ _ 0 F'). exact H. }
  subst h'. cbn [bind].
  assert (R : forall bit pos, readAddrCred_mem m' data h bit pos = readAddrCred_mem m data h bit pos) by (intros; unfold readAddrCred_mem, subslice; rewrite (same_length m m') by exact S; reflexivity).
  destruct (_ =? 8). { destruct (byron_unmarshal (seen m data)); [| discriminate | discriminate]. cbn [bind]. intros A. injection A as <-. destruct (N Logic.I). }
  rewrite !R. destruct (_ || _ || _ || _)%bool. { intros A B. rewrite A in B. injection B as <-. reflexivity. }
  destruct (_ || _)%bool.
  { destruct (_ <? 32)%nat; [discriminate |]. destruct (readAddrCred_mem m data h 4 1) as [c0 | |]; [| discriminate | discriminate]. cbn [bind].
    destruct (VariableNatDecode (skipn 29 (seen m data))) as [[x n1] | |]; [| discriminate | discriminate]. cbn [bind].
    destruct (VariableNatDecode (skipn (29 + Z.to_nat n1) (seen m data))) as [[y n2] | |]; [| discriminate | discriminate]. cbn [bind].
    destruct (VariableNatDecode (skipn (29 + Z.to_nat n1 + Z.to_nat n2) (seen m data))) as [[c n3] | |]; [| discriminate | discriminate]. cbn [bind].
    destruct (_ <? sl_len data)%nat; [discriminate |]. intros A. injection A as <-. destruct (Np Logic.I). }
  destruct (_ || _)%bool. { intros A B. rewrite A in B. injection B as <-. reflexivity. }
  destruct (_ || _)%bool; [| discriminate]. intros A B. rewrite A in B. injection B as <-. reflexivity.
Qed.
Print Assumptions C88_reuse_refuted.

(** An address depends on one array only. *)
Lemma now_local (m1 m2 : Memory) s h a : parsed m1 s h a -> nth (sl_array s) m2 [] = nth (sl_array s) m1 [] -> addr_now m2 a = addr_now m1 a.
Proof.
  intros P E. assert (C : forall k pos, cred_now m2 (cred_at k s pos) = cred_now m1 (cred_at k s pos)) by (intros; unfold cred_now, cred_at, seen; cbn [c_kind c_payload sl_array sl_from sl_len]; rewrite E; reflexivity).
  destruct P; cbn [addr_now]; rewrite ?C; reflexivity.
Qed.

Lemma alloc_seen m d sp m1 s : alloc m d sp = (m1, s) -> inside m1 s /\ seen m1 s = d /\ behind m1 s = sp /\ sl_array s = length m.
Proof.
  unfold alloc. intros E. injection E as <- <-. unfold inside, seen, behind. cbn [sl_array sl_from sl_len]. rewrite app_nth2, Nat.sub_diag by lia. cbn [nth skipn].
  rewrite app_length, firstn_app, skipn_app, Nat.sub_diag, firstn_all, skipn_all. cbn [firstn skipn app]. rewrite app_nil_r. repeat split; lia.
Qed.

(** C88, what holds: an address read from text owns its memory. Nothing that was there before, and nothing written to it later, is
    shared with the address. *)
Theorem C88_text : forall (U : Unicode) (R : Runtime) m raw m1 a, NewAddress_mem m raw = (m1, Ok a) ->
  NewAddress raw = Ok (addr_now m1 a) /\ (exists x, m1 = m ++ [x]) /\
  forall m2 : Memory, nth (length m) m2 [] = nth (length m) m1 [] -> addr_now m2 a = addr_now m1 a.
Proof.
  intros U R m raw m1 a. unfold NewAddress_mem, NewAddress.
  assert (G : forall d sp m0 s, alloc m d sp = (m0, s) -> (m0, NewAddressFromBytes_mem m0 s) = (m1, Ok a) ->
    NewAddressFromBytes d sp = Ok (addr_now m1 a) /\ (exists x, m1 = m ++ [x]) /\ forall m2 : Memory, nth (length m) m2 [] = nth (length m) m1 [] -> addr_now m2 a = addr_now m1 a).
  { intros d sp m0 s A H. injection H as <- H. destruct (alloc_seen m d sp m0 s A) as (I & E1 & E2 & E3). pose proof (parse_now m0 s I) as P. rewrite H, E1, E2 in P. split; [symmetry; exact P |].
    split; [unfold alloc in A; injection A as <- _; eexists; reflexivity |]. apply parse_parsed in H as (h & _ & H). intros m2 Em. apply (now_local m0 m2 s h a H). rewrite E3. exact Em. }
  destruct (has_prefix raw (str "addr") || has_prefix raw (str "stake")).
  - destruct (decode raw) as [[hrp d] | |]; [| discriminate | discriminate]. cbn [bind]. destruct (alloc m d (append_spare (length d))) as [m0 s] eqn:A. apply G. exact A.
  - destruct (alloc m (b58_decode raw) []) as [m0 s] eqn:A. apply G. exact A.
Qed.
Print Assumptions C88_text.
Theorem C88_hex : forall (R : Runtime) m raw m1 a, NewAddressFromHex_mem m raw = (m1, Ok a) ->
  NewAddressFromHex raw = Ok (addr_now m1 a) /\ (exists x, m1 = m ++ [x]) /\
  forall m2 : Memory, nth (length m) m2 [] = nth (length m) m1 [] -> addr_now m2 a = addr_now m1 a.
Proof.
  intros R m raw m1 a. unfold NewAddressFromHex_mem, NewAddressFromHex. destruct (hex_decode raw) as [d | |]; [| discriminate | discriminate]. cbn [bind].
  destruct (alloc m d (hex_spare raw)) as [m0 s] eqn:A. intros H. injection H as <- H. destruct (alloc_seen m d _ m0 s A) as (I & E1 & E2 & E3). pose proof (parse_now m0 s I) as P. rewrite H, E1, E2 in P.
  split; [symmetry; exact P |]. split; [unfold alloc in A; injection A as <- _; eexists; reflexivity |]. apply parse_parsed in H as (h & _ & H). intros m2 Em. apply (now_local m0 m2 s h a H). rewrite E3. exact Em.
Qed.
Print Assumptions C88_hex.

(** The enterprise and the reward address of a base address share its hashes: they stay those of the base address in every later
    state, also after a write to it. *)
Theorem C88_derived : forall m n pay stake, exists b, addr_now m (MBase n pay stake) = ABase b /\
  addr_now m (ToEnterprise_mem n pay stake) = AEnterprise (ToEnterprise b) /\ addr_now m (ToReward_mem n pay stake) = AReward (ToReward b).
Proof. intros. eexists. repeat split. Qed.
Print Assumptions C88_derived.

(** An enterprise address parsed from a buffer, and the buffer filled with zeros afterwards. *)
Example C88_case : let m := [97 :: repeat 7 28] in let m' := [repeat 0 29] in let data := {| sl_array := 0; sl_from := 0; sl_len := 29 |} in
  inside m data /\ same_arrays m m' /\ exists a, NewAddressFromBytes_mem m data = Ok a /\ ~ is_byron (addr_now m a) /\
    addr_bytes (addr_now m a) = 97 :: repeat 7 28 /\ addr_bytes (addr_now m' a) = 97 :: repeat 0 28.
Proof. cbv zeta. split; [unfold inside; cbn; lia |]. split; [reflexivity |]. eexists. split; [reflexivity |]. split; [intros [] |]. split; reflexivity. Qed.

(** ** Keys *)
(** A key that NormalizeBytesForce3rd leaves as it is: the low three bits of the first byte clear, the high three bits of the last
    byte of the scalar 010. *)
Definition normal_key (l : list Z) : Prop := nth 0 l 0 mod 8 = 0 /\ 64 <= nth 31 l 0 < 96.

Lemma index_nth m s i : inside m s -> (i < sl_len s)%nat -> index (seen m s) i = Ok (nth i (seen m s) 0).
Proof. intros I L. unfold index. rewrite (nth_error_nth' _ 0) by (rewrite seen_length; auto). reflexivity. Qed.
Lemma nth_seen m s i : (i < sl_len s)%nat -> nth i (seen m s) 0 = nth (sl_from s + i) (nth (sl_array s) m []) 0.
Proof. intros L. unfold seen. rewrite nth_firstn_lt, nth_skipn_add by exact L. reflexivity. Qed.
Lemma store_ok m s i v : (i < sl_len s)%nat -> exists m', store m s i v = Ok m'.
Proof. intros L. unfold store. destruct (Nat.ltb_spec i (sl_len s)); [eauto | lia]. Qed.
Lemma store_seen m s i v m' : inside m s -> store m s i v = Ok m' -> seen m' s = set_nth (seen m s) i v.
Proof.
  intros I H. destruct (store_spec m s i v m' I H) as (L & S & N). pose proof (same_inside m m' s S I) as I'.
  apply (list_ext 0); [rewrite set_nth_length, !seen_length by (rewrite ?seen_length; auto); reflexivity |]. intros k Hk. rewrite seen_length in Hk by exact I'.
  rewrite set_nth_nth by (rewrite seen_length; auto). rewrite !nth_seen by exact Hk. rewrite N, Nat.eqb_refl. cbn [andb].
  destruct (Nat.eqb_spec (sl_from s + k) (sl_from s + i)); destruct (Nat.eqb_spec k i); try lia; reflexivity.
Qed.
Lemma update_set l i f : (i < length l)%nat -> update l i f = Ok (set_nth l i (f (nth i l 0))).
Proof. intros L. unfold update, index, set_nth. rewrite (nth_error_nth' _ 0) by exact L. reflexivity. Qed.

Lemma land_248 v : 0 <= v < 256 -> Z.land v 248 = v - v mod 8.
Proof.
  intros H. assert (E : Forall (fun x => Z.land x 248 = x - x mod 8) (map Z.of_nat (seq 0 256))) by (apply Forall_forall; apply Forall_forall; repeat constructor).
  rewrite Forall_forall in E. apply E. apply in_map_iff. exists (Z.to_nat v). split; [lia |]. apply in_seq. lia.
Qed.
Lemma clamp_31 v : 0 <= v < 256 -> Z.lor (Z.land v 31) 64 = 64 + v mod 32.
Proof.
  intros H. assert (E : Forall (fun x => Z.lor (Z.land x 31) 64 = 64 + x mod 32) (map Z.of_nat (seq 0 256))) by (apply Forall_forall; apply Forall_forall; repeat constructor).
  rewrite Forall_forall in E. apply E. apply in_map_iff. exists (Z.to_nat v). split; [lia |]. apply in_seq. lia.
Qed.

(** C89. Full statement: [fst (NormalizeBytesForce3rd_mem m b) = m], and the result is a new key. Exactly what happens: the result is
    the argument itself, two of its bytes are rewritten where they are, and the memory is unchanged only if they were right before. *)
Theorem C89_exact : forall m b, inside m b -> (32 <= sl_len b)%nat -> all_bytes (seen m b) -> exists m',
  NormalizeBytesForce3rd_mem m b = (m', Ok b) /\ NormalizeBytesForce3rd (seen m b) = Ok (seen m' b) /\ same_arrays m m' /\
  (forall a j, nth j (nth a m' []) 0 =
     if (a =? sl_array b)%nat && (j =? sl_from b)%nat then nth j (nth a m []) 0 - nth j (nth a m []) 0 mod 8
     else if (a =? sl_array b)%nat && (j =? sl_from b + 31)%nat then 64 + nth j (nth a m []) 0 mod 32
     else nth j (nth a m []) 0) /\
  (seen m' b = seen m b <-> normal_key (seen m b)).
Proof.
  intros m b I L B.
  assert (By : forall i, (i < sl_len b)%nat -> 0 <= nth i (seen m b) 0 < 256).
  { intros i Hi. assert (In (nth i (seen m b) 0) (seen m b)) as X by (apply nth_In; rewrite seen_length; auto). specialize (B _ X). lia. }
  pose proof (By 0%nat ltac:(lia)) as B0. pose proof (By 31%nat ltac:(lia)) as B31.
  unfold NormalizeBytesForce3rd_mem. rewrite index_nth by (auto; lia). destruct (store_ok m b 0 (Z.land (nth 0 (seen m b) 0) 248) ltac:(lia)) as (m1 & W1). rewrite W1.
  destruct (store_spec m b 0 _ m1 I W1) as (_ & S1 & N1). pose proof (same_inside _ _ _ S1 I) as I1. pose proof (store_seen m b 0 _ m1 I W1) as E1.
  rewrite index_nth by (auto; lia). destruct (store_ok m1 b 31 (Z.land (nth 31 (seen m1 b) 0) 31) ltac:(lia)) as (m2 & W2). rewrite W2.
  destruct (store_spec m1 b 31 _ m2 I1 W2) as (_ & S2 & N2). pose proof (same_inside _ _ _ S2 I1) as I2. pose proof (store_seen m1 b 31 _ m2 I1 W2) as E2.
  rewrite index_nth by (auto; lia). destruct (store_ok m2 b 31 (Z.lor (nth 31 (seen m2 b) 0) 64) ltac:(lia)) as (m3 & W3). rewrite W3.
  destruct (store_spec m2 b 31 _ m3 I2 W3) as (_ & S3 & N3). pose proof (same_inside _ _ _ S3 I2) as I3. pose proof (store_seen m2 b 31 _ m3 I2 W3) as E3.
  assert (V : forall a j, nth j (nth a m3 []) 0 =
     if (a =? sl_array b)%nat && (j =? sl_from b)%nat then nth j (nth a m []) 0 - nth j (nth a m []) 0 mod 8
     else if (a =? sl_array b)%nat && (j =? sl_from b + 31)%nat then 64 + nth j (nth a m []) 0 mod 32
     else nth j (nth a m []) 0).
  { intros a j. rewrite N3, E2. rewrite (set_nth_nth (seen m1 b) 31 _ 0) by (rewrite seen_length; auto; lia). cbn [Nat.eqb]. rewrite E1, (set_nth_nth (seen m b) 0 _ 0) by (rewrite seen_length; auto; lia). cbn [Nat.eqb].
    rewrite clamp_31 by exact B31. rewrite N2, N1, land_248 by exact B0. rewrite !nth_seen by lia. rewrite Nat.add_0_r.
    destruct (Nat.eqb_spec a (sl_array b)) as [-> |]; [| reflexivity]. cbn [andb].
    destruct (Nat.eqb_spec j (sl_from b + 31)) as [-> |]; [destruct (Nat.eqb_spec (sl_from b + 31) (sl_from b)); [lia | reflexivity] |].
    destruct (Nat.eqb_spec j (sl_from b)) as [-> |]; reflexivity. }
  exists m3. split; [reflexivity |]. split.
  { unfold NormalizeBytesForce3rd. rewrite update_set by (rewrite seen_length; auto; lia). cbn [bind]. rewrite <- E1. rewrite update_set by (rewrite seen_length; auto; lia). cbn [bind]. rewrite <- E2.
    rewrite update_set by (rewrite seen_length; auto; lia). cbn [bind]. rewrite <- E3. reflexivity. }
  split. { unfold same_arrays in *. congruence. } split; [exact V |]. unfold normal_key. split.
  - intros E. assert (X : forall i, (i < sl_len b)%nat -> nth i (seen m3 b) 0 = nth i (seen m b) 0) by (intros; rewrite E; reflexivity).
    pose proof (X 0%nat ltac:(lia)) as X0. pose proof (X 31%nat ltac:(lia)) as X31. rewrite (nth_seen m3), V, !Nat.add_0_r, !Nat.eqb_refl in X0 by lia. rewrite (nth_seen m3), V, !Nat.eqb_refl in X31 by lia. cbn [andb] in X0, X31.
    destruct (Nat.eqb_spec (sl_from b + 31) (sl_from b)); [lia |]. rewrite nth_seen, Nat.add_0_r in X0 by lia. rewrite nth_seen in X31 by lia. rewrite !nth_seen, Nat.add_0_r by lia.
    revert X0 X31. generalize (nth (sl_from b) (nth (sl_array b) m []) 0) (nth (sl_from b + 31) (nth (sl_array b) m []) 0). intros x y X0 X31. split; [lia |]. pose proof (Z.mod_pos_bound y 32 ltac:(lia)). lia.
  - intros [H0 H31]. apply (list_ext 0); [rewrite !seen_length; auto |]. intros i Hi. rewrite seen_length in Hi by exact I3. rewrite nth_seen in H0, H31 by lia. rewrite Nat.add_0_r in H0.
    rewrite !nth_seen, V, Nat.eqb_refl by exact Hi. cbn [andb]. destruct (Nat.eqb_spec (sl_from b + i) (sl_from b)) as [-> |]; [lia |].
    destruct (Nat.eqb_spec (sl_from b + i) (sl_from b + 31)) as [-> |]; [| reflexivity]. revert H31. generalize (nth (sl_from b + 31) (nth (sl_array b) m []) 0). intros y H. Z.to_euclidean_division_equations; lia.
Qed.
Print Assumptions C89_exact.

(** Too short an argument panics with its first byte already rewritten. *)
Theorem C89_panic_refuted : forall m b, inside m b -> (1 <= sl_len b < 32)%nat -> all_bytes (seen m b) -> exists m',
  NormalizeBytesForce3rd_mem m b = (m', Panic) /\ NormalizeBytesForce3rd (seen m b) = Panic /\ seen m' b = set_nth (seen m b) 0 (nth 0 (seen m b) 0 - nth 0 (seen m b) 0 mod 8).
Proof.
  intros m b I L B. assert (B0 : 0 <= nth 0 (seen m b) 0 < 256). { assert (In (nth 0 (seen m b) 0) (seen m b)) as X by (apply nth_In; rewrite seen_length; auto; lia). specialize (B _ X). lia. }
  unfold NormalizeBytesForce3rd_mem. rewrite index_nth by (auto; lia). destruct (store_ok m b 0 (Z.land (nth 0 (seen m b) 0) 248) ltac:(lia)) as (m1 & W1). rewrite W1.
  destruct (store_spec m b 0 _ m1 I W1) as (_ & S1 & N1). pose proof (same_inside _ _ _ S1 I) as I1. pose proof (store_seen m b 0 _ m1 I W1) as E1.
  assert (X : index (seen m1 b) 31 = Panic) by (unfold index; rewrite (proj2 (nth_error_None _ _)); [reflexivity | rewrite seen_length; auto; lia]). rewrite X. exists m1. split; [reflexivity |].
  split; [| rewrite E1, land_248 by exact B0; reflexivity]. unfold NormalizeBytesForce3rd. rewrite update_set by (rewrite seen_length; auto; lia). cbn [bind]. rewrite <- E1. unfold update. rewrite X. reflexivity.
Qed.
Print Assumptions C89_panic_refuted.

(** The chain code of a key is part of the key: what is written to it is written to the key. *)
Lemma part_spec m key lo hi part : inside m key -> (hi <= sl_len key)%nat -> subslice m key lo hi = Ok part ->
  slice (seen m key) lo hi = Ok (seen m part) /\ forall i v m', store m part i v = Ok m' -> seen m' key = set_nth (seen m key) (lo + i) v.
Proof.
  intros I Lh P. apply subslice_ok in P as (Lo & Hi & ->). assert (Ls : length (seen m key) = sl_len key) by (apply seen_length; exact I). split.
  - unfold slice. rewrite Ls. destruct (Nat.leb_spec lo hi); [| lia]. destruct (Nat.leb_spec hi (sl_len key)); [| lia]. cbn [andb]. f_equal. rewrite subslice_seen. rewrite skipn_app, Ls.
    replace (lo - sl_len key)%nat with 0%nat by lia. cbn [skipn]. rewrite firstn_app, skipn_length, Ls. replace (hi - lo - (sl_len key - lo))%nat with 0%nat by lia. cbn [firstn]. rewrite app_nil_r. reflexivity.
  - intros i v m' W. set (part := {| sl_array := sl_array key; sl_from := sl_from key + lo; sl_len := hi - lo |}) in *.
    assert (Ip : inside m part) by (unfold inside in *; subst part; cbn [sl_array sl_from sl_len]; lia).
    destruct (store_spec m part i v m' Ip W) as (Li & S & N). subst part. cbn [sl_array sl_from sl_len] in *. pose proof (same_inside m m' key S I) as I'.
    apply (list_ext 0); [rewrite set_nth_length, !seen_length by (rewrite ?seen_length; auto; lia); reflexivity |]. intros k Hk. rewrite seen_length in Hk by exact I'.
    rewrite set_nth_nth by (rewrite seen_length; auto; lia). rewrite !nth_seen by exact Hk. rewrite N, Nat.eqb_refl. cbn [andb].
    destruct (Nat.eqb_spec (sl_from key + k) (sl_from key + lo + i)); destruct (Nat.eqb_spec k (lo + i)); try lia; reflexivity.
Qed.

Theorem C89_parts : forall m key, inside m key ->
  (forall cc, XPrv_ChainCode_mem m key = Ok cc -> XPrv_ChainCode (seen m key) = Ok (seen m cc) /\ forall i v m', store m cc i v = Ok m' -> seen m' key = set_nth (seen m key) (64 + i) v) /\
  (forall k, (64 <= sl_len key)%nat -> extendedPrivateKey_mem m key = Ok k -> extendedPrivateKey (seen m key) = Ok (seen m k) /\ forall i v m', store m k i v = Ok m' -> seen m' key = set_nth (seen m key) i v) /\
  (forall cc, XPub_ChainCode_mem m key = Ok cc -> XPub_ChainCode (seen m key) = Ok (seen m cc) /\ forall i v m', store m cc i v = Ok m' -> seen m' key = set_nth (seen m key) (32 + i) v) /\
  (forall pk, (32 <= sl_len key)%nat -> XPub_PublicKey_mem m key = Ok pk -> XPub_PublicKey (seen m key) = Ok (seen m pk) /\ forall i v m', store m pk i v = Ok m' -> seen m' key = set_nth (seen m key) i v).
Proof.
  intros m key I. pose proof (seen_length m key I) as Ls. split; [| split; [| split]].
  - intros cc. unfold XPrv_ChainCode_mem, XPrv_ChainCode. rewrite Ls. destruct (_ <=? _)%nat; [| discriminate]. intros P. apply (part_spec m key 64 (sl_len key) cc I); auto.
  - intros k L P. apply (part_spec m key 0 64 k I L P).
  - intros cc. unfold XPub_ChainCode_mem, XPub_ChainCode. rewrite Ls. destruct (_ <=? _)%nat; [| discriminate]. intros P. apply (part_spec m key 32 (sl_len key) cc I); auto.
  - intros k L P. apply (part_spec m key 0 32 k I L P).
Qed.
Print Assumptions C89_parts.

(** Key material of 96 bytes 255, normalised in place. *)
Example C89_case : let m := [repeat 255 96] in let b := {| sl_array := 0; sl_from := 0; sl_len := 96 |} in
  inside m b /\ all_bytes (seen m b) /\ ~ normal_key (seen m b) /\ fst (NormalizeBytesForce3rd_mem m b) = [248 :: repeat 255 30 ++ 95 :: repeat 255 64] /\
  exists cc, XPrv_ChainCode_mem m b = Ok cc /\ store m cc 0 1 = Ok [repeat 255 64 ++ 1 :: repeat 255 31].
Proof.
  cbv zeta. split; [unfold inside; cbn; lia |]. split; [intros x H; change (In x (repeat 255 96)) in H; apply repeat_spec in H; lia |]. split; [intros [_ H]; cbn in H; lia |]. split; [reflexivity |]. eexists. split; reflexivity.
Qed.

(** ** Keys of the wrong length *)
Lemma slice_firstn {A} (l : list A) n lo hi : (hi <= n)%nat -> slice (firstn n l) lo hi = slice l lo hi.
Proof.
  intros Hn. unfold slice. rewrite firstn_length. replace (hi <=? Nat.min n (length l))%nat with (hi <=? length l)%nat by (destruct (Nat.leb_spec hi (length l)); destruct (Nat.leb_spec hi (Nat.min n (length l))); lia).
  destruct (Nat.leb_spec lo hi); [| reflexivity]. destruct (Nat.leb_spec hi (length l)); [| reflexivity]. cbn [andb]. f_equal. rewrite skipn_firstn_comm, firstn_firstn. f_equal. lia.
Qed.
Lemma subslice_slice m s lo hi : match subslice m s lo hi with Ok t => Ok (seen m t) | Err e => Err e | Panic => Panic end = slice (reach m s) lo hi.
Proof.
  unfold subslice, slice, reach. rewrite skipn_length. destruct (_ && _)%bool; [| reflexivity]. f_equal. unfold seen. cbn [sl_array sl_from sl_len]. rewrite <- skipn_add. reflexivity.
Qed.

Lemma public_mem m s : MakePublicKey_mem m s = MakePublicKey (reach m s).
Proof. unfold MakePublicKey_mem, MakePublicKey. rewrite <- subslice_slice. destruct (subslice m s 0 32); reflexivity. Qed.
Lemma Sign_firstn {H : Hashes} k msg : Sign (firstn 64 k) msg = Sign k msg.
Proof. unfold Sign, MakePublicKey. rewrite !slice_firstn by lia. reflexivity. Qed.
Lemma Sign_reach {H : Hashes} m key msg : Sign_mem m key msg = Sign (reach m key) msg.
Proof.
  unfold Sign_mem, Sign. rewrite public_mem, <- !subslice_slice. destruct (MakePublicKey (reach m key)); [| reflexivity | reflexivity]. cbn [bind].
  destruct (subslice m key 32 64); [| reflexivity | reflexivity]. cbn [bind]. destruct (slice (sha512 _) 0 64); [| reflexivity | reflexivity]. cbn [bind].
  destruct (subslice m key 0 32); reflexivity.
Qed.
Lemma Sign_short {H : Hashes} k msg : (length k < 64)%nat -> Sign k msg = Panic.
Proof.
  intros L. unfold Sign. destruct (MakePublicKey k) as [x | e |] eqn:E; [| | reflexivity].
  - cbn [bind]. unfold slice at 1. destruct (Nat.leb_spec 64 (length k)); [lia | reflexivity].
  - unfold MakePublicKey in E. unfold slice in E. destruct (_ && _)%bool; discriminate E.
Qed.

(** C90. Full statement: [sl_len key <> 96 -> forall s, Sign_mem m key msg <> Ok s]. Exactly what Sign reads: the 64 bytes from the start of
    the slice on, wherever the slice ends; it panics when the array ends before. *)
Theorem C90_exact : forall (H : Hashes) m key msg, inside m key ->
  Sign_mem m key msg = Sign (firstn 64 (reach m key)) msg /\ ((length (reach m key) < 64)%nat -> Sign_mem m key msg = Panic).
Proof. intros H m key msg I. rewrite Sign_firstn, Sign_reach. split; [reflexivity |]. apply Sign_short. Qed.
Print Assumptions C90_exact.

(** A key cut to any length, even to nothing, by [key[:n]] signs as the whole key does. *)
Theorem C90_cut_refuted : forall (H : Hashes) m key n cut msg, inside m key -> (64 <= sl_len key)%nat -> (n <= sl_len key)%nat ->
  subslice m key 0 n = Ok cut -> sl_len cut = n /\ Sign_mem m cut msg = Sign (seen m key) msg.
Proof.
  intros H m key n cut msg I L Hn C. apply subslice_ok in C as (_ & _ & ->). split; [cbn [sl_len]; lia |]. rewrite Sign_reach. unfold reach. cbn [sl_array sl_from]. rewrite Nat.add_0_r.
  rewrite <- (Sign_firstn (seen m key)), <- Sign_firstn. f_equal. unfold seen. rewrite firstn_firstn. f_equal. lia.
Qed.
Print Assumptions C90_cut_refuted.

(** The public key of an XPub that is too short is filled from the memory behind it. *)
Theorem C90_public_refuted : forall m pub, inside m pub -> (32 <= length (reach m pub))%nat ->
  exists pk, XPub_PublicKey_mem m pub = Ok pk /\ seen m pk = firstn 32 (reach m pub).
Proof.
  intros m pub I L. unfold XPub_PublicKey_mem. pose proof (subslice_slice m pub 0 32) as E. unfold slice in E. destruct (Nat.leb_spec 32 (length (reach m pub))); [| lia]. cbn [Nat.leb andb Nat.sub skipn] in E.
  destruct (subslice m pub 0 32) as [pk | |]; [| discriminate | discriminate]. exists pk. split; [reflexivity |]. injection E as E. exact E.
Qed.
Print Assumptions C90_public_refuted.

(** Five bytes of a key of 96. *)
Example C90_case : let m := [repeat 8 31 ++ 72 :: repeat 9 64] in let key := {| sl_array := 0; sl_from := 0; sl_len := 96 |} in
  inside m key /\ subslice m key 0 5 = Ok {| sl_array := 0; sl_from := 0; sl_len := 5 |}.
Proof. cbv zeta. split; [unfold inside; cbn; lia | reflexivity]. Qed.
