(** Slices and what they see. *)
From Verif.Model Require Import Base Bech32 Hex Base58 Network Address Bip32 Memory.
From Verif.Spec Require Import AddressSpec.
From Verif.Proofs Require Import Util AddressFacts.

(** The slice lies inside its array. *)
Definition inside (m : Memory) (s : Slice) : Prop := (sl_from s + sl_len s <= length (nth (sl_array s) m []))%nat.
(** Two states of the same arrays. *)
Definition same_arrays (m m' : Memory) : Prop := map (@length Z) m' = map (@length Z) m.

Lemma same_length m m' i : same_arrays m m' -> length (nth i m' []) = length (nth i m []).
Proof. intros H. rewrite <- !(map_nth (@length Z)). rewrite H. reflexivity. Qed.
Lemma same_inside m m' s : same_arrays m m' -> inside m s -> inside m' s.
Proof. intros H I. unfold inside. rewrite (same_length m m') by exact H. exact I. Qed.

Lemma seen_behind m s : seen m s ++ behind m s = skipn (sl_from s) (nth (sl_array s) m []).
Proof. apply firstn_skipn. Qed.
Lemma seen_length m s : inside m s -> length (seen m s) = sl_len s.
Proof. unfold inside, seen. intros H. rewrite firstn_length, skipn_length. lia. Qed.
Lemma avail_length m s : length (seen m s ++ behind m s) = (length (nth (sl_array s) m []) - sl_from s)%nat.
Proof. rewrite seen_behind, skipn_length. reflexivity. Qed.

Lemma skipn_add {A} (l : list A) : forall a b, skipn a (skipn b l) = skipn (b + a) l.
Proof.
  intros a b. revert l. induction b as [| b IH]; intros l; [reflexivity |]. destruct l as [| x l]; [now rewrite !skipn_nil |]. cbn [skipn Nat.add]. apply IH.
Qed.

Lemma subslice_ok m s lo hi t : subslice m s lo hi = Ok t ->
  (lo <= hi)%nat /\ (hi <= length (seen m s ++ behind m s))%nat /\ t = {| sl_array := sl_array s; sl_from := sl_from s + lo; sl_len := hi - lo |}.
Proof.
  unfold subslice. rewrite avail_length. destruct (_ && _)%bool eqn:E; [| discriminate]. intros H. injection H as <-.
  apply andb_prop in E as [E1 E2]. apply Nat.leb_le in E1, E2. auto.
Qed.
Lemma subslice_seen m s lo hi : seen m {| sl_array := sl_array s; sl_from := sl_from s + lo; sl_len := hi - lo |} = firstn (hi - lo) (skipn lo (seen m s ++ behind m s)).
Proof. unfold seen at 1. cbn [sl_array sl_from sl_len]. rewrite seen_behind, skipn_add. reflexivity. Qed.

(** The parser of Memory.v and that of Address.v agree. *)
Definition now (m : Memory) (r : result MAddress) : result Address :=
  match r with Ok a => Ok (addr_now m a) | Err e => Err e | Panic => Panic end.

Lemma read_cred_now m s h bit pos :
  readAddrCred (seen m s) (behind m s) h bit pos = match readAddrCred_mem m s h bit pos with Ok c => Ok (cred_now m c) | Err e => Err e | Panic => Panic end.
Proof.
  unfold readAddrCred, readAddrCred_mem, slice, subslice. rewrite <- avail_length.
  destruct ((pos <=? pos + 28) && (pos + 28 <=? length (seen m s ++ behind m s)))%nat; [| reflexivity]. cbn [bind].
  rewrite <- subslice_seen. destruct (_ =? 0); reflexivity.
Qed.

Lemma parse_now m s : inside m s -> now m (NewAddressFromBytes_mem m s) = NewAddressFromBytes (seen m s) (behind m s).
Proof.
  intros I. unfold NewAddressFromBytes, NewAddressFromBytes_mem. rewrite (seen_length m s I). destruct (index (seen m s) 0) as [h | e |]; [| reflexivity | reflexivity]. cbn [bind].
  generalize (Z.shiftr (Z.land h 240) 4). generalize (networks (Z.land h 15)). intros nw k. rewrite !read_cred_now.
  destruct (k =? 8). { destruct (byron_unmarshal (seen m s)); reflexivity. }
  destruct ((k =? 0) || (k =? 1) || (k =? 2) || (k =? 3)).
  { destruct (readAddrCred_mem m s h 4 1); [| reflexivity | reflexivity]. cbn [bind]. destruct (readAddrCred_mem m s h 5 29); reflexivity. }
  destruct ((k =? 4) || (k =? 5)).
  { destruct (_ <? 32)%nat; [reflexivity |]. destruct (readAddrCred_mem m s h 4 1); [| reflexivity | reflexivity]. cbn [bind].
    destruct (VariableNatDecode (skipn 29 (seen m s))) as [[x n1] | |]; [| reflexivity | reflexivity]. cbn [bind].
    destruct (VariableNatDecode (skipn (29 + Z.to_nat n1) (seen m s))) as [[y n2] | |]; [| reflexivity | reflexivity]. cbn [bind].
    destruct (VariableNatDecode (skipn (29 + Z.to_nat n1 + Z.to_nat n2) (seen m s))) as [[z n3] | |]; [| reflexivity | reflexivity]. cbn [bind].
    destruct (_ <? sl_len s)%nat; reflexivity. }
  destruct ((k =? 6) || (k =? 7)).
  { destruct (_ <? 29)%nat; [reflexivity |]. destruct (29 <? _)%nat; [reflexivity |]. destruct (readAddrCred_mem m s h 4 1); reflexivity. }
  destruct ((k =? 14) || (k =? 15)); [| reflexivity].
  destruct (_ <? 29)%nat; [reflexivity |]. destruct (29 <? _)%nat; [reflexivity |]. destruct (readAddrCred_mem m s h 4 1); reflexivity.
Qed.

(** The credential at [pos]. *)
Definition cred_at (k : Z) (s : Slice) (pos : nat) : Cred := {| c_kind := k; c_payload := {| sl_array := sl_array s; sl_from := sl_from s + pos; sl_len := 28 |} |}.
Lemma read_cred_at m s h bit pos c : readAddrCred_mem m s h bit pos = Ok c ->
  (pos + 28 <= length (seen m s ++ behind m s))%nat /\ c = cred_at (if Z.land h (u8 (Z.shiftl 1 bit)) =? 0 then 0 else 1) s pos.
Proof.
  unfold readAddrCred_mem. destruct (subslice m s pos (pos + 28)) as [t | |] eqn:E; [| discriminate | discriminate]. cbn [bind].
  apply subslice_ok in E as (_ & L & ->). replace (pos + 28 - pos)%nat with 28%nat by lia. intros H. split; [exact L |]. destruct (_ =? 0); injection H as <-; reflexivity.
Qed.

(** What a parsed address looks like in memory. *)
Inductive parsed (m : Memory) (s : Slice) (h : Z) : MAddress -> Prop :=
| parsed_base : (57 <= length (seen m s ++ behind m s))%nat ->
    parsed m s h (MBase (networks (Z.land h 15)) (cred_at (if Z.land h (u8 (Z.shiftl 1 4)) =? 0 then 0 else 1) s 1) (cred_at (if Z.land h (u8 (Z.shiftl 1 5)) =? 0 then 0 else 1) s 29))
| parsed_enterprise : (29 <= length (seen m s ++ behind m s))%nat -> parsed m s h (MEnterprise (networks (Z.land h 15)) (cred_at (if Z.land h (u8 (Z.shiftl 1 4)) =? 0 then 0 else 1) s 1))
| parsed_reward : (29 <= length (seen m s ++ behind m s))%nat -> parsed m s h (MReward (networks (Z.land h 15)) (cred_at (if Z.land h (u8 (Z.shiftl 1 4)) =? 0 then 0 else 1) s 1))
| parsed_pointer p : (29 <= length (seen m s ++ behind m s))%nat -> parsed m s h (MPointer (networks (Z.land h 15)) (cred_at (if Z.land h (u8 (Z.shiftl 1 4)) =? 0 then 0 else 1) s 1) p)
| parsed_byron b : parsed m s h (MByron b).

Lemma parse_parsed m s a : NewAddressFromBytes_mem m s = Ok a -> exists h, index (seen m s) 0 = Ok h /\ parsed m s h a.
Proof.
  unfold NewAddressFromBytes_mem. destruct (index (seen m s) 0) as [h | |]; [| discriminate | discriminate]. cbn [bind]. intros P. exists h. split; [reflexivity |].
  revert P. generalize (Z.shiftr (Z.land h 240) 4). intros k.
  destruct (k =? 8). { destruct (byron_unmarshal (seen m s)); [| discriminate | discriminate]. cbn [bind]. intros P. injection P as <-. constructor. }
  destruct ((k =? 0) || (k =? 1) || (k =? 2) || (k =? 3)).
  { destruct (readAddrCred_mem m s h 4 1) as [c | |] eqn:C; [| discriminate | discriminate]. cbn [bind]. destruct (readAddrCred_mem m s h 5 29) as [d | |] eqn:D; [| discriminate | discriminate].
    cbn [bind]. intros P. injection P as <-. apply read_cred_at in C as [_ ->], D as [L ->]. constructor. exact L. }
  destruct ((k =? 4) || (k =? 5)).
  { destruct (_ <? 32)%nat; [discriminate |]. destruct (readAddrCred_mem m s h 4 1) as [c0 | |] eqn:C; [| discriminate | discriminate]. cbn [bind].
    destruct (VariableNatDecode (skipn 29 (seen m s))) as [[x n1] | |]; [| discriminate | discriminate]. cbn [bind].
    destruct (VariableNatDecode (skipn (29 + Z.to_nat n1) (seen m s))) as [[b n2] | |]; [| discriminate | discriminate]. cbn [bind].
    destruct (VariableNatDecode (skipn (29 + Z.to_nat n1 + Z.to_nat n2) (seen m s))) as [[c n3] | |]; [| discriminate | discriminate]. cbn [bind].
    destruct (_ <? sl_len s)%nat; [discriminate |]. intros P. injection P as <-. apply read_cred_at in C as [L ->]. constructor. exact L. }
  destruct ((k =? 6) || (k =? 7)).
  { destruct (_ <? 29)%nat; [discriminate |]. destruct (29 <? _)%nat; [discriminate |]. destruct (readAddrCred_mem m s h 4 1) as [c | |] eqn:C; [| discriminate | discriminate]. cbn [bind].
    intros P. injection P as <-. apply read_cred_at in C as [L ->]. constructor. exact L. }
  destruct ((k =? 14) || (k =? 15)); [| discriminate].
  destruct (_ <? 29)%nat; [discriminate |]. destruct (29 <? _)%nat; [discriminate |]. destruct (readAddrCred_mem m s h 4 1) as [c | |] eqn:C; [| discriminate | discriminate]. cbn [bind].
  intros P. injection P as <-. apply read_cred_at in C as [L ->]. constructor. exact L.
Qed.

(** Bytes of addresses whose hashes have 28 bytes, whatever the header. *)
Lemma base_bytes_28 b : length (Payload (ba_pay b)) = 28%nat -> length (Payload (ba_stake b)) = 28%nat ->
  base_bytes b = Z.lor (Z.lor (u8 (Z.shiftl (Kind (ba_pay b)) 4)) (u8 (Z.shiftl (Kind (ba_stake b)) 5))) (Z.land (NetworkId (ba_net b)) 0xf) :: Payload (ba_pay b) ++ Payload (ba_stake b).
Proof.
  intros L1 L2. unfold base_bytes. set (h := Z.lor _ _). change 57%nat with (S 56). rewrite copy_head. change (h :: repeat 0 56) with ([h] ++ repeat 0 56).
  rewrite copy_mid by (auto; rewrite L1; lia). rewrite L1. cbn [Nat.sub]. rewrite app_assoc.
  rewrite copy_mid by (rewrite ?app_length; cbn [length]; lia). rewrite L2. cbn [Nat.sub repeat]. rewrite app_nil_r, <- app_assoc. reflexivity.
Qed.
Lemma enterprise_bytes_28 e : length (Payload (ea_pay e)) = 28%nat ->
  enterprise_bytes e = Z.lor (Z.lor 0x60 (u8 (Z.shiftl (Kind (ea_pay e)) 4))) (Z.land (NetworkId (ea_net e)) 0xf) :: Payload (ea_pay e).
Proof.
  intros L1. unfold enterprise_bytes. set (h := Z.lor _ _). change 29%nat with (S 28) at 1. rewrite copy_head. change (h :: repeat 0 28) with ([h] ++ repeat 0 28).
  rewrite copy_mid by (auto; rewrite L1; lia). rewrite L1. cbn [Nat.sub repeat]. rewrite app_nil_r. reflexivity.
Qed.
Lemma reward_bytes_28 e : length (Payload (ra_stake e)) = 28%nat ->
  reward_bytes e = Z.lor (Z.lor 0xe0 (u8 (Z.shiftl (Kind (ra_stake e)) 4))) (Z.land (NetworkId (ra_net e)) 0xf) :: Payload (ra_stake e).
Proof.
  intros L1. unfold reward_bytes. set (h := Z.lor _ _). change 29%nat with (S 28) at 1. rewrite copy_head. change (h :: repeat 0 28) with ([h] ++ repeat 0 28).
  rewrite copy_mid by (auto; rewrite L1; lia). rewrite L1. cbn [Nat.sub repeat]. rewrite app_nil_r. reflexivity.
Qed.

Lemma cred_at_now m k s pos : cred_now m (cred_at k s pos) = {| Kind := k; Payload := firstn 28 (skipn pos (seen m s ++ behind m s)) |}.
Proof. unfold cred_now, cred_at. cbn [c_kind c_payload]. pose proof (subslice_seen m s pos (pos + 28)) as E. replace (pos + 28 - pos)%nat with 28%nat in E by lia. rewrite E. reflexivity. Qed.

Lemma firstn_plus {A} (l : list A) a b : firstn (a + b) l = firstn a l ++ firstn b (skipn a l).
Proof. revert l. induction a as [| a IH]; intros l; [reflexivity |]. destruct l as [| x l]; [rewrite skipn_nil, !firstn_nil; reflexivity |]. cbn. f_equal. apply IH. Qed.

(** ** Writing *)
Lemma set_nth_length {A} (l : list A) i v : (i < length l)%nat -> length (set_nth l i v) = length l.
Proof. intros H. unfold set_nth. rewrite app_length. cbn [length]. rewrite firstn_length, skipn_length. lia. Qed.
Lemma set_nth_nth {A} (l : list A) i v d : (i < length l)%nat -> forall j, nth j (set_nth l i v) d = if (j =? i)%nat then v else nth j l d.
Proof.
  intros H j. unfold set_nth. rewrite <- (firstn_skipn i l) at 3. destruct (Nat.eqb_spec j i) as [-> | N].
  - rewrite app_nth2; rewrite firstn_length; [| lia]. replace (i - Nat.min i (length l))%nat with 0%nat by lia. reflexivity.
  - destruct (Nat.lt_ge_cases j i) as [L | L].
    + rewrite !app_nth1 by (rewrite firstn_length; lia). reflexivity.
    + rewrite !app_nth2 by (rewrite firstn_length; lia). rewrite firstn_length. replace (Nat.min i (length l)) with i by lia. destruct (j - i)%nat as [| k] eqn:E; [lia |]. cbn [nth].
      replace (Datatypes.S i) with (i + 1)%nat by lia. rewrite <- (skipn_add l 1 i). destruct (skipn i l) as [| x r]; [destruct k; reflexivity | reflexivity].
Qed.

Lemma list_ext {A} (d : A) (l l' : list A) : length l = length l' -> (forall i, (i < length l)%nat -> nth i l d = nth i l' d) -> l = l'.
Proof. intros H1 H2. apply (nth_ext l l' d d); auto. Qed.

Lemma nth_firstn_lt {A} (l : list A) n i d : (i < n)%nat -> nth i (firstn n l) d = nth i l d.
Proof. revert n i. induction l as [| x l IH]; intros n i H; [rewrite firstn_nil; reflexivity |]. destruct n; [lia |]. destruct i; [reflexivity |]. cbn. apply IH. lia. Qed.
Lemma nth_skipn_add {A} (l : list A) n i d : nth i (skipn n l) d = nth (n + i) l d.
Proof. revert l. induction n as [| n IH]; intros l; [reflexivity |]. destruct l as [| x l]; [destruct i; reflexivity |]. cbn. apply IH. Qed.

(** An array that exists. *)
Lemma array_exists m s : inside m s -> (0 < sl_len s)%nat -> (sl_array s < length m)%nat.
Proof. intros I L. destruct (Nat.lt_ge_cases (sl_array s) (length m)) as [H | H]; [exact H |]. unfold inside in I. rewrite nth_overflow in I by exact H. cbn in I. lia. Qed.

Lemma store_spec m s i v m' : inside m s -> store m s i v = Ok m' ->
  (i < sl_len s)%nat /\ same_arrays m m' /\ (forall a j, nth j (nth a m' []) 0 = if (a =? sl_array s)%nat && (j =? sl_from s + i)%nat then v else nth j (nth a m []) 0).
Proof.
  intros I. unfold store. destruct (Nat.ltb_spec i (sl_len s)) as [L | L]; [| discriminate]. intros H. injection H as <-. split; [exact L |].
  pose proof (array_exists m s I ltac:(lia)) as E. assert (B : (sl_from s + i < length (nth (sl_array s) m []))%nat) by (unfold inside in I; lia). split.
  - unfold same_arrays. apply (list_ext 0%nat); [rewrite !map_length; apply set_nth_length; exact E |]. intros k _.
    change 0%nat with (length (@nil Z)). rewrite !map_nth. rewrite set_nth_nth by exact E. destruct (Nat.eqb_spec k (sl_array s)) as [-> |]; [| reflexivity]. apply set_nth_length. exact B.
  - intros a j. rewrite set_nth_nth by exact E. destruct (Nat.eqb_spec a (sl_array s)) as [-> |]; [| reflexivity]. rewrite set_nth_nth by exact B. cbn [andb]. reflexivity.
Qed.

Lemma store_avail m s i v m' : inside m s -> store m s i v = Ok m' -> seen m' s ++ behind m' s = set_nth (seen m s ++ behind m s) i v.
Proof.
  intros I H. destruct (store_spec m s i v m' I H) as (L & S & N). rewrite !seen_behind.
  assert (Li : (i < length (skipn (sl_from s) (nth (sl_array s) m [])))%nat) by (rewrite skipn_length; unfold inside in I; lia).
  apply (list_ext 0); [rewrite set_nth_length, !skipn_length, (same_length m m') by auto; reflexivity |]. intros k _. rewrite set_nth_nth by exact Li. rewrite !nth_skipn_add, N, Nat.eqb_refl. cbn [andb].
  destruct (Nat.eqb_spec (sl_from s + k) (sl_from s + i)); destruct (Nat.eqb_spec k i); try lia; reflexivity.
Qed.
