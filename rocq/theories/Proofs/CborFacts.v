(** The encoder writes, and the decoder reads back, the shortest form. *)
From Verif.Model Require Import Base Cbor.
From Verif.Spec Require Import CborSpec.
From Verif.Proofs Require Import Util.

Lemma be_snoc k n : be (S k) n = be k (n / 256) ++ [n mod 256].
Proof.
  unfold be. rewrite seq_S, map_app. cbn [map Nat.add]. f_equal.
  - apply map_ext_in. intros i Hi. apply in_seq in Hi.
    rewrite Z.div_div by (try lia; apply Z.pow_pos_nonneg; lia).
    replace (256 * 256 ^ Z.of_nat (k - 1 - i)) with (256 ^ (1 + Z.of_nat (k - 1 - i))) by (rewrite Z.pow_add_r by lia; reflexivity).
    do 2 f_equal. f_equal. lia.
  - replace (S k - 1 - k)%nat with 0%nat by lia. cbn. rewrite Z.div_1_r. reflexivity.
Qed.
Lemma be_bytes_be k : forall n, be_bytes k n = be k n.
Proof. induction k as [| k IH]; intros n; [reflexivity |]. cbn [be_bytes]. rewrite be_snoc, IH. reflexivity. Qed.
Lemma be_length k n : length (be k n) = k.
Proof. unfold be. rewrite map_length, seq_length. reflexivity. Qed.
Lemma be_range k n b : In b (be k n) -> 0 <= b < 256.
Proof. unfold be. intros H. apply in_map_iff in H as (i & <- & _). apply Z.mod_pos_bound. lia. Qed.
Lemma be_value k : forall n, 0 <= n < 256 ^ Z.of_nat k -> fold_left (fun a b => a * 256 + b) (be k n) 0 = n.
Proof.
  induction k as [| k IH]; intros n H; [cbn in *; lia |].
  rewrite be_snoc, fold_left_app. cbn [fold_left]. rewrite IH.
  - pose proof (Z.div_mod n 256 ltac:(lia)). lia.
  - rewrite Nat2Z.inj_succ, Z.pow_succ_r in H by lia. split; [apply Z.div_pos; lia |]. apply Z.div_lt_upper_bound; lia.
Qed.

Lemma lor_major t a : 0 <= t < 8 -> 0 <= a < 32 -> Z.lor (u8 (Z.shiftl t 5)) a = 32 * t + a.
Proof.
  intros Ht Ha. rewrite Z.shiftl_mul_pow2 by lia. rewrite u8_id by lia. rewrite lor_add by lia. lia.
Qed.

Lemma enc_head_spec t n : 0 <= t < 8 -> 0 <= n < 2 ^ 64 -> enc_head t n = head t n.
Proof.
  intros Ht Hn. unfold enc_head, head. rewrite !be_bytes_be.
  change (2 ^ 8) with 256. change (2 ^ 16) with 65536. change (2 ^ 32) with 4294967296.
  destruct (Z.leb_spec n 23), (Z.ltb_spec n 24); try lia; [rewrite lor_major by lia; reflexivity |].
  destruct (Z.leb_spec n 255), (Z.ltb_spec n 256); try lia; [rewrite lor_major by lia; reflexivity |].
  destruct (Z.leb_spec n 65535), (Z.ltb_spec n 65536); try lia; [rewrite lor_major by lia; reflexivity |].
  destruct (Z.leb_spec n 4294967295), (Z.ltb_spec n 4294967296); try lia; rewrite lor_major by lia; reflexivity.
Qed.

Lemma head_cons t n : exists x r, head t n = x :: r.
Proof. unfold head. repeat (match goal with |- context [if ?b then _ else _] => destruct b end); eauto. Qed.
Lemma head_pos t n : (1 <= length (head t n))%nat.
Proof. destruct (head_cons t n) as (x & r & ->). cbn. lia. Qed.
Lemma head_range t n b : 0 <= t < 8 -> 0 <= n < 2 ^ 64 -> In b (head t n) -> 0 <= b < 256.
Proof.
  intros Ht Hn. unfold head. 
  repeat (match goal with |- context [if ?a <? ?b then _ else _] => destruct (Z.ltb_spec a b) end);
  intros [<- | Hb]; try lia; try (destruct Hb; fail); apply be_range in Hb; lia.
Qed.

(** Induction with the nested lists. *)
Lemma item_ind' (P : item -> Prop) :
  (forall n, P (Uint n)) -> (forall n, P (Nint n)) -> (forall b, P (Bstr b)) -> (forall b, P (Tstr b)) ->
  (forall l, Forall P l -> P (Arr l)) -> (forall l, Forall (fun kv => P (fst kv) /\ P (snd kv)) l -> P (Map l)) ->
  (forall t v, P v -> P (Tag t v)) -> (forall n, P (Simple n)) -> (forall w n, P (Float w n)) -> forall i, P i.
Proof.
  intros H1 H2 H3 H4 H5 H6 H7 H8 H9. fix IH 1.
  intros [n | n | b | b | l | l | t v | n | w n]; [apply H1 | apply H2 | apply H3 | apply H4 | | | apply H7, IH | apply H8 | apply H9].
  - apply H5. induction l as [| v l IHl]; constructor; [apply IH | exact IHl].
  - apply H6. induction l as [| [k v] l IHl]; constructor; [split; apply IH | exact IHl].
Qed.

Fixpoint cval_of (i : item) : cval :=
  match i with
  | Uint n => CUint n
  | Nint n => CNint n
  | Bstr b => CBytes b
  | Tstr b => CText b
  | Arr l => CArr (map cval_of l)
  | Map l => CMap (map (fun '(k, v) => (cval_of k, cval_of v)) l)
  | Tag t v => CTag t (cval_of v)
  | Simple n => CSimple n
  | Float w n => CFloat w n
  end.

(** Fuel the parser needs. *)
Fixpoint need (i : item) : nat :=
  match i with
  | Arr l => S (fold_right (fun v m => S (Nat.max (need v) m)) 0%nat l)
  | Map l => S (fold_right (fun '(k, v) m => S (Nat.max (need k) (Nat.max (need v) m))) 0%nat l)
  | Tag _ v => S (need v)
  | _ => 1%nat
  end.

Lemma cbor_pos i : (1 <= length (cbor i))%nat.
Proof.
  destruct i; cbn [cbor]; rewrite ?app_length; try (cbn [length]; lia);
    match goal with |- context [head ?t ?n] => pose proof (head_pos t n) end; lia.
Qed.

Lemma need_bound i : (need i + 1 <= 2 * length (cbor i))%nat.
Proof.
  induction i as [n | n | b | b | l IH | l IH | t v IH | n | w n] using item_ind'; cbn [need cbor]; rewrite ?app_length; try (cbn [length]; lia);
    match goal with |- context [head ?t ?n] => pose proof (head_pos t n) as HP; revert HP; generalize (length (head t n)); intros h HP end; try lia.
  - enough (fold_right (fun v m => S (Nat.max (need v) m)) 0 l <= 2 * length (flat_map cbor l))%nat by lia.
    induction IH as [| v l Hv _ IHl]; cbn [fold_right flat_map]; [lia |]. rewrite app_length. pose proof (cbor_pos v). lia.
  - enough (fold_right (fun '(k, v) m => S (Nat.max (need k) (Nat.max (need v) m))) 0 l <= 2 * length (flat_map (fun '(k, v) => cbor k ++ cbor v) l))%nat by lia.
    induction IH as [| [k v] l [Hk Hv] _ IHl]; cbn [fold_right flat_map fst snd] in *; [lia |]. rewrite !app_length. pose proof (cbor_pos v). pose proof (cbor_pos k). lia.
Qed.

(** Reading a head. *)
Lemma parse_arg_head t n r : 0 <= t < 8 -> 0 <= n < 2 ^ 64 ->
  exists ib d1, head t n ++ r = ib :: d1 /\ ib / 32 = t /\ 0 <= ib mod 32 < 28 /\ (n < 24 <-> ib mod 32 < 24) /\
    parse_arg (ib mod 32) d1 = Some (n, r).
Proof.
  intros Ht Hn.
  assert (DM : forall a, 0 <= a < 32 -> (32 * t + a) / 32 = t /\ (32 * t + a) mod 32 = a).
  { intros a Ha. split; symmetry; [apply Z.div_unique with a | apply Z.mod_unique with t]; lia. }
  assert (TK : forall k, 0 <= n < 256 ^ Z.of_nat k ->
     (if (length (be k n ++ r) <? k)%nat then None else Some (fold_left (fun a b => a * 256 + b) (firstn k (be k n ++ r)) 0, skipn k (be k n ++ r))) = Some (n, r)).
  { intros k Hk. rewrite app_length, be_length. destruct (Nat.ltb_spec (k + length r) k); [lia |].
    rewrite firstn_app, skipn_app, be_length, Nat.sub_diag, firstn_all2, skipn_all2 by (rewrite be_length; lia).
    cbn [firstn skipn app]. rewrite app_nil_r, be_value by auto. reflexivity. }
  unfold head. change (2 ^ 8) with 256. change (2 ^ 16) with 65536. change (2 ^ 32) with 4294967296.
  destruct (Z.ltb_spec n 24).
  { exists (32 * t + n), r. destruct (DM n ltac:(lia)) as [-> ->]. repeat split; try lia.
    unfold parse_arg. destruct (Z.ltb_spec n 24); [reflexivity | lia]. }
  destruct (Z.ltb_spec n 256).
  { exists (32 * t + 24), (be 1 n ++ r). destruct (DM 24 ltac:(lia)) as [-> ->]. repeat split; try lia. apply (TK 1%nat). cbn; lia. }
  destruct (Z.ltb_spec n 65536).
  { exists (32 * t + 25), (be 2 n ++ r). destruct (DM 25 ltac:(lia)) as [-> ->]. repeat split; try lia. apply (TK 2%nat). cbn; lia. }
  destruct (Z.ltb_spec n 4294967296).
  { exists (32 * t + 26), (be 4 n ++ r). destruct (DM 26 ltac:(lia)) as [-> ->]. repeat split; try lia. apply (TK 4%nat). cbn; lia. }
  exists (32 * t + 27), (be 8 n ++ r). destruct (DM 27 ltac:(lia)) as [-> ->]. repeat split; try lia. apply (TK 8%nat).
  cbn; lia.
Qed.

Lemma parse_string_app b r : parse_string (zlen b) (b ++ r) = Some (b, r).
Proof.
  unfold parse_string, zlen. rewrite app_length. destruct (Z.ltb_spec (Z.of_nat (length b + length r)) (Z.of_nat (length b))); [lia |].
  rewrite Nat2Z.id, firstn_app, skipn_app, Nat.sub_diag, firstn_all, skipn_all. cbn. rewrite app_nil_r. reflexivity.
Qed.

Lemma parse_cbor i : item_ok i -> forall fuel r, (need i <= fuel)%nat -> parse fuel (cbor i ++ r) = Some (cval_of i, r).
Proof.
  induction i as [n | n | b | b | l IH | l IH | t v IH | n | w n] using item_ind'; intros Ok [| f] r F; cbn [need] in F; try lia; cbn [cbor item_ok] in *.
  - destruct (parse_arg_head 0 n r) as (ib & d1 & -> & T & A & _ & P); [lia | lia |].
    cbn [parse]. rewrite T, P. destruct (Z.eqb_spec (ib mod 32) 31); [lia |]. reflexivity.
  - destruct (parse_arg_head 1 n r) as (ib & d1 & -> & T & A & _ & P); [lia | lia |].
    cbn [parse]. rewrite T, P. destruct (Z.eqb_spec (ib mod 32) 31); [lia |]. reflexivity.
  - rewrite <- app_assoc. destruct (parse_arg_head 2 (zlen b) (b ++ r)) as (ib & d1 & E & T & A & _ & P); [lia | unfold zlen; lia |].
    unfold zlen in E. rewrite E. cbn [parse]. rewrite T, P. destruct (Z.eqb_spec (ib mod 32) 31); [lia |]. cbn [Z.eqb]. rewrite parse_string_app. reflexivity.
  - rewrite <- app_assoc. destruct (parse_arg_head 3 (zlen b) (b ++ r)) as (ib & d1 & E & T & A & _ & P); [lia | unfold zlen; lia |].
    unfold zlen in E. rewrite E. cbn [parse]. rewrite T, P. destruct (Z.eqb_spec (ib mod 32) 31); [lia |]. cbn [Z.eqb]. rewrite parse_string_app. reflexivity.
  - rewrite <- app_assoc. destruct (parse_arg_head 4 (Z.of_nat (length l)) (flat_map cbor l ++ r)) as (ib & d1 & -> & T & A & _ & P); [lia | lia |].
    cbn [parse]. rewrite T, P. destruct (Z.eqb_spec (ib mod 32) 31); [lia |]. cbn [Z.eqb].
    assert (PL : parse_list f (Z.of_nat (length l)) (flat_map cbor l ++ r) = Some (map cval_of l, r)).
    { clear P T A. destruct Ok as [_ Ok]. assert (F' : (fold_right (fun v m => S (Nat.max (need v) m)) 0 l <= f)%nat) by lia. clear F.
      revert f F'. induction IH as [| v l Hv _ IHl]; intros f F; cbn [length flat_map fold_right map] in *.
      - destruct f; reflexivity.
      - destruct f as [| f]; [lia |]. cbn [parse_list].
        destruct (Z.leb_spec (Z.of_nat (S (length l))) 0); [lia |].
        rewrite <- app_assoc. rewrite Hv by (tauto || lia).
        replace (Z.of_nat (S (length l)) - 1) with (Z.of_nat (length l)) by lia.
        rewrite IHl by (tauto || lia). reflexivity. }
    rewrite PL. reflexivity.
  - rewrite <- app_assoc. destruct (parse_arg_head 5 (Z.of_nat (length l)) (flat_map (fun '(k, v) => cbor k ++ cbor v) l ++ r)) as (ib & d1 & -> & T & A & _ & P); [lia | lia |].
    cbn [parse]. rewrite T, P. destruct (Z.eqb_spec (ib mod 32) 31); [lia |]. cbn [Z.eqb].
    assert (PL : parse_pairs f (Z.of_nat (length l)) (flat_map (fun '(k, v) => cbor k ++ cbor v) l ++ r) = Some (map (fun '(k, v) => (cval_of k, cval_of v)) l, r)).
    { clear P T A. destruct Ok as [_ Ok].
      assert (F' : (fold_right (fun '(k, v) m => S (Nat.max (need k) (Nat.max (need v) m))) 0 l <= f)%nat) by lia. clear F.
      revert f F'. induction IH as [| [k v] l [Hk Hv] _ IHl]; intros f F; cbn [length flat_map fold_right map fst snd] in *.
      - destruct f; reflexivity.
      - destruct f as [| f]; [lia |]. cbn [parse_pairs].
        destruct (Z.leb_spec (Z.of_nat (S (length l))) 0); [lia |].
        rewrite <- !app_assoc. rewrite Hk by (tauto || lia). rewrite Hv by (tauto || lia).
        replace (Z.of_nat (S (length l)) - 1) with (Z.of_nat (length l)) by lia.
        rewrite IHl by (tauto || lia). reflexivity. }
    rewrite PL. reflexivity.
  - rewrite <- app_assoc. destruct (parse_arg_head 6 t (cbor v ++ r)) as (ib & d1 & -> & T & A & _ & P); [lia | lia |].
    cbn [parse]. rewrite T, P. destruct (Z.eqb_spec (ib mod 32) 31); [lia |]. cbn [Z.eqb]. rewrite IH by (tauto || lia). reflexivity.
  - destruct (parse_arg_head 7 n r) as (ib & d1 & -> & T & A & C & P); [lia | lia |].
    cbn [parse]. rewrite T, P. destruct (Z.eqb_spec (ib mod 32) 31); [lia |]. cbn [Z.eqb].
    replace (ib mod 32 <? 24) with true by lia. reflexivity.
  - destruct Ok as [W N].
    assert (TK : forall k, 0 <= n < 256 ^ Z.of_nat k ->
       (if (length (be k n ++ r) <? k)%nat then None else Some (fold_left (fun a b => a * 256 + b) (firstn k (be k n ++ r)) 0, skipn k (be k n ++ r))) = Some (n, r)).
    { intros k Hk. rewrite app_length, be_length. destruct (Nat.ltb_spec (k + length r) k); [lia |].
      rewrite firstn_app, skipn_app, be_length, Nat.sub_diag, firstn_all2, skipn_all2 by (rewrite be_length; lia).
      cbn [firstn skipn app]. rewrite app_nil_r, be_value by auto. reflexivity. }
    destruct W as [-> | [-> | ->]]; cbn [Z.eqb Pos.eqb app]; [change (Z.to_nat 2) with 2%nat | change (Z.to_nat 4) with 4%nat | change (Z.to_nat 8) with 8%nat]; cbn [parse].
    + change (249 / 32) with 7. change (249 mod 32) with 25. cbn [Z.eqb Pos.eqb]. change (parse_arg 25 (be 2 n ++ r)) with (if (length (be 2 n ++ r) <? 2)%nat then None else Some (fold_left (fun a b => a * 256 + b) (firstn 2 (be 2 n ++ r)) 0, skipn 2 (be 2 n ++ r))). rewrite TK by exact N. reflexivity.
    + change (250 / 32) with 7. change (250 mod 32) with 26. cbn [Z.eqb Pos.eqb]. change (parse_arg 26 (be 4 n ++ r)) with (if (length (be 4 n ++ r) <? 4)%nat then None else Some (fold_left (fun a b => a * 256 + b) (firstn 4 (be 4 n ++ r)) 0, skipn 4 (be 4 n ++ r))). rewrite TK by exact N. reflexivity.
    + change (251 / 32) with 7. change (251 mod 32) with 27. cbn [Z.eqb Pos.eqb]. change (parse_arg 27 (be 8 n ++ r)) with (if (length (be 8 n ++ r) <? 8)%nat then None else Some (fold_left (fun a b => a * 256 + b) (firstn 8 (be 8 n ++ r)) 0, skipn 8 (be 8 n ++ r))). rewrite TK by exact N. reflexivity.
Qed.

Lemma parse_item_cbor i r : item_ok i -> parse_item (cbor i ++ r) = Some (cval_of i).
Proof.
  intros Ok. unfold parse_item. rewrite parse_cbor; auto.
  pose proof (need_bound i). rewrite app_length. lia.
Qed.

(** The encoder's pieces. *)
Lemma enc_bytes_spec b : zlen b < 2 ^ 64 -> enc_bytes b = cbor (Bstr b).
Proof. intros. unfold enc_bytes. rewrite enc_head_spec by (unfold zlen in *; lia). reflexivity. Qed.
Lemma enc_text_spec b : zlen b < 2 ^ 64 -> enc_text b = cbor (Tstr b).
Proof. intros. unfold enc_text. rewrite enc_head_spec by (unfold zlen in *; lia). reflexivity. Qed.
Lemma enc_uint_spec n : 0 <= n < 2 ^ 64 -> enc_uint n = cbor (Uint n).
Proof. intros. unfold enc_uint. rewrite enc_head_spec by lia. reflexivity. Qed.

(** Bytes of the encoding are bytes. *)
Lemma cbor_bytes_ok i : item_ok i -> bytes_ok (cbor i).
Proof.
  assert (HB : forall t n, 0 <= t < 8 -> 0 <= n < 2 ^ 64 -> bytes_ok (head t n)).
  { intros t n Ht Hn. apply Forall_forall. intros b Hb. apply head_range in Hb; auto. }
  induction i as [n | n | b | b | l IH | l IH | t v IH | n | w n] using item_ind'; cbn [cbor item_ok]; intros Ok;
    rewrite ?bytes_ok_app; try (apply HB; lia).
  - split; [apply HB; lia | apply Forall_forall; apply Ok].
  - split; [apply HB; lia | apply Forall_forall; apply Ok].
  - split; [apply HB; lia |]. destruct Ok as [_ Ok]. induction IH as [| v l Hv _ IHl]; cbn [flat_map fold_right] in *; [constructor |].
    apply bytes_ok_app. tauto.
  - split; [apply HB; lia |]. destruct Ok as [_ Ok]. induction IH as [| [k v] l [Hk Hv] _ IHl]; cbn [flat_map fold_right fst snd] in *; [constructor |].
    rewrite !bytes_ok_app. tauto.
  - split; [apply HB; lia | apply IH, Ok].
  - apply Forall_forall. intros b [<- | I]; [destruct (w =? 2); [| destruct (w =? 4)]; unfold is_byte; lia |]. apply be_range in I. exact I.
Qed.
