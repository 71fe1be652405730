(** The decoder accepts exactly the well-formed encodings and returns the item they encode. *)
From Verif.Model Require Import Base Cbor.
From Verif.Spec Require Import CborSpec.
From Verif.Proofs Require Import Util CborFacts.

Lemma all_bytes_ok l : all_bytes l <-> bytes_ok l.
Proof. unfold all_bytes, bytes_ok, is_byte. rewrite Forall_forall. reflexivity. Qed.

Lemma bytes_split (d : bytes) n : (length d <? n)%nat = false -> exists a r, d = a ++ r /\ length a = n /\ firstn n d = a /\ skipn n d = r.
Proof.
  intros H. apply Nat.ltb_ge in H. exists (firstn n d), (skipn n d). rewrite firstn_skipn. repeat split; auto.
  rewrite firstn_length. lia.
Qed.

(** ** Soundness *)
Lemma parse_arg_sound ai d n r : 0 <= ai -> bytes_ok d -> parse_arg ai d = Some (n, r) ->
  exists a, d = a ++ r /\ arg ai n a.
Proof.
  intros Ha B H. unfold parse_arg in H.
  destruct (Z.ltb_spec ai 24).
  { injection H as <- <-. exists []. split; [reflexivity | constructor; lia]. }
  repeat match type of H with
  | (if ?x =? ?y then _ else _) = _ => destruct (Z.eqb_spec x y); [subst ai |]
  end; try discriminate;
  match type of H with (if (?l <? ?k)%nat then _ else _) = _ => destruct (l <? k)%nat eqn:L; [discriminate |] end;
  apply bytes_split in L as (a & r' & -> & La & Ea & Er); rewrite Ea, Er in H; injection H as <- <-;
  exists a; (split; [reflexivity |]); constructor; auto; apply all_bytes_ok; apply bytes_ok_app in B; apply B.
Qed.

Lemma parse_string_sound n d b r : 0 <= n -> parse_string n d = Some (b, r) -> d = b ++ r /\ Z.of_nat (length b) = n.
Proof.
  intros Hn H. unfold parse_string, zlen in H. destruct (Z.ltb_spec (Z.of_nat (length d)) n); [discriminate |].
  injection H as <- <-. rewrite firstn_skipn. split; auto. rewrite firstn_length. lia.
Qed.

Lemma arg_nonneg ai n a : arg ai n a -> 0 <= n /\ 0 <= ai < 28.
Proof.
  assert (V : forall l, all_bytes l -> 0 <= value256 l).
  { intros l H. apply all_bytes_ok in H. change (value256 l) with (bev 256 l). apply (bev_range 256 l); [lia | exact H]. }
  inversion 1; subst; split; try lia; apply V; auto.
Qed.

Lemma initial_byte ib : is_byte ib -> ib = 32 * (ib / 32) + ib mod 32 /\ 0 <= ib / 32 < 8 /\ 0 <= ib mod 32 < 32.
Proof.
  unfold is_byte. intros. pose proof (Z.div_mod ib 32 ltac:(lia)). pose proof (Z.mod_pos_bound ib 32 ltac:(lia)).
  repeat split; try lia.
Qed.

Lemma parse_chunks_sound m : 0 <= m < 8 -> forall f d b r, bytes_ok d -> parse_chunks f m d = Some (b, r) ->
  exists e, d = e ++ r /\ chunks m b e.
Proof.
  intros Hm. induction f as [| f IH]; intros d b r B H; [discriminate |]. cbn [parse_chunks] in H.
  destruct d as [| ib d1]; [discriminate |].
  destruct (Z.eqb_spec ib 255).
  { injection H as <- <-. subst. exists [255]. split; [reflexivity | constructor]. }
  destruct (Z.eqb_spec (ib / 32) m); cbn [negb] in H; [| discriminate].
  inversion B; subst. destruct (initial_byte ib H2) as (Eib & _ & Ha).
  destruct (parse_arg (ib mod 32) d1) as [[k d2] |] eqn:PA; [| discriminate].
  apply parse_arg_sound in PA as (a & -> & A); [| lia | auto].
  destruct (parse_string k d2) as [[b1 d3] |] eqn:PS; [| discriminate].
  apply parse_string_sound in PS as [-> L]; [| apply arg_nonneg in A; lia].
  apply bytes_ok_app in H3 as [_ B2]. apply bytes_ok_app in B2 as [Bb B3].
  destruct (parse_chunks f (ib / 32) d3) as [[bs d4] |] eqn:PC; [| discriminate]. injection H as <- <-.
  apply IH in PC as (e & -> & C); auto.
  exists (ib :: a ++ b1 ++ e). split; [cbn [app]; rewrite <- !app_assoc; reflexivity |].
  rewrite Eib at 2. apply ch_chunk; auto; [rewrite L; auto | apply all_bytes_ok; auto].
Qed.

Lemma parse_sound f :
  (forall d v r, bytes_ok d -> parse f d = Some (v, r) -> exists i e, d = e ++ r /\ enc i e /\ v = cval_of i) /\
  (forall n d l r, bytes_ok d -> 0 <= n -> parse_list f n d = Some (l, r) ->
     exists is e, d = e ++ r /\ encs is e /\ l = map cval_of is /\ Z.of_nat (length is) = n) /\
  (forall n d l r, bytes_ok d -> 0 <= n -> parse_pairs f n d = Some (l, r) ->
     exists is e, d = e ++ r /\ encp is e /\ l = map (fun '(k, v) => (cval_of k, cval_of v)) is /\ Z.of_nat (length is) = n) /\
  (forall d l r, bytes_ok d -> parse_until f d = Some (l, r) ->
     exists is e, d = e ++ 255 :: r /\ encs is e /\ l = map cval_of is) /\
  (forall d l r, bytes_ok d -> parse_pairs_until f d = Some (l, r) ->
     exists is e, d = e ++ 255 :: r /\ encp is e /\ l = map (fun '(k, v) => (cval_of k, cval_of v)) is).
Proof.
  induction f as [| f (IH1 & IH2 & IH3 & IH4 & IH5)].
  - split; [| split; [| split; [| split]]].
    + intros. discriminate.
    + intros n d l r B Hn H. cbn in H. destruct (Z.leb_spec n 0); [| discriminate]. injection H as <- <-.
      exists [], []. repeat split; [constructor | cbn; lia].
    + intros n d l r B Hn H. cbn in H. destruct (Z.leb_spec n 0); [| discriminate]. injection H as <- <-.
      exists [], []. repeat split; [constructor | cbn; lia].
    + intros. discriminate.
    + intros. discriminate.
  - split; [| split; [| split; [| split]]].
    + intros d v r B H. destruct d as [| ib d1]; [discriminate |]. cbn [parse] in H.
      inversion B as [| ? ? Bi Bd]; subst. destruct (initial_byte ib Bi) as (Eib & Ht & Ha).
      remember (ib mod 32) as ai eqn:Eai. remember (ib / 32) as t eqn:Et. clear Eai Et. subst ib.
      destruct (Z.eqb_spec ai 31).
      { subst ai.
        destruct (Z.eqb_spec t 2); [subst t |].
        { destruct (parse_chunks f 2 d1) as [[b r'] |] eqn:P; [| discriminate]. injection H as <- <-.
          apply parse_chunks_sound in P as (e & -> & C); [| lia | auto].
          exists (Bstr b), (95 :: e). split; [reflexivity |]. split; [constructor; auto | reflexivity]. }
        destruct (Z.eqb_spec t 3); [subst t |].
        { destruct (parse_chunks f 3 d1) as [[b r'] |] eqn:P; [| discriminate]. injection H as <- <-.
          apply parse_chunks_sound in P as (e & -> & C); [| lia | auto].
          exists (Tstr b), (127 :: e). split; [reflexivity |]. split; [constructor; auto | reflexivity]. }
        destruct (Z.eqb_spec t 4); [subst t |].
        { destruct (parse_until f d1) as [[l r'] |] eqn:P; [| discriminate]. injection H as <- <-.
          apply IH4 in P as (is & e & -> & E & ->); auto.
          exists (Arr is), (159 :: e ++ [255]). split; [cbn [app]; rewrite <- app_assoc; reflexivity |]. split; [constructor; auto | reflexivity]. }
        destruct (Z.eqb_spec t 5); [subst t |]; [| discriminate].
        destruct (parse_pairs_until f d1) as [[l r'] |] eqn:P; [| discriminate]. injection H as <- <-.
        apply IH5 in P as (is & e & -> & E & ->); auto.
        exists (Map is), (191 :: e ++ [255]). split; [cbn [app]; rewrite <- app_assoc; reflexivity |]. split; [constructor; auto | reflexivity]. }
      destruct (parse_arg ai d1) as [[nn d2] |] eqn:PA; [| discriminate].
      apply parse_arg_sound in PA as (a & -> & A); [| lia | auto].
      pose proof (arg_nonneg _ _ _ A) as [Nn An]. apply bytes_ok_app in Bd as [Ba Bd].
      destruct (Z.eqb_spec t 0); [subst t |].
      { injection H as <- <-. exists (Uint nn), (ai :: a). split; [reflexivity |]. split; [constructor; auto | reflexivity]. }
      destruct (Z.eqb_spec t 1); [subst t |].
      { injection H as <- <-. exists (Nint nn), (32 + ai :: a). split; [reflexivity |]. split; [constructor; auto | reflexivity]. }
      destruct (Z.eqb_spec t 2); [subst t |].
      { destruct (parse_string nn d2) as [[b r'] |] eqn:P; [| discriminate]. injection H as <- <-.
        apply parse_string_sound in P as [-> L]; auto. apply bytes_ok_app in Bd as [Bb _].
        exists (Bstr b), (64 + ai :: a ++ b). split; [cbn [app]; rewrite <- app_assoc; reflexivity |].
        split; [constructor; [rewrite L; auto | apply all_bytes_ok; auto] | reflexivity]. }
      destruct (Z.eqb_spec t 3); [subst t |].
      { destruct (parse_string nn d2) as [[b r'] |] eqn:P; [| discriminate]. injection H as <- <-.
        apply parse_string_sound in P as [-> L]; auto. apply bytes_ok_app in Bd as [Bb _].
        exists (Tstr b), (96 + ai :: a ++ b). split; [cbn [app]; rewrite <- app_assoc; reflexivity |].
        split; [constructor; [rewrite L; auto | apply all_bytes_ok; auto] | reflexivity]. }
      destruct (Z.eqb_spec t 4); [subst t |].
      { destruct (parse_list f nn d2) as [[l r'] |] eqn:P; [| discriminate]. injection H as <- <-.
        apply IH2 in P as (is & e & -> & E & -> & L); auto.
        exists (Arr is), (128 + ai :: a ++ e). split; [cbn [app]; rewrite <- app_assoc; reflexivity |].
        split; [constructor; [rewrite L; auto | auto] | reflexivity]. }
      destruct (Z.eqb_spec t 5); [subst t |].
      { destruct (parse_pairs f nn d2) as [[l r'] |] eqn:P; [| discriminate]. injection H as <- <-.
        apply IH3 in P as (is & e & -> & E & -> & L); auto.
        exists (Map is), (160 + ai :: a ++ e). split; [cbn [app]; rewrite <- app_assoc; reflexivity |].
        split; [constructor; [rewrite L; auto | auto] | reflexivity]. }
      destruct (Z.eqb_spec t 6); [subst t |].
      { destruct (parse f d2) as [[v' r'] |] eqn:P; [| discriminate]. injection H as <- <-.
        apply IH1 in P as (i & e & -> & E & ->); auto.
        exists (Tag nn i), (192 + ai :: a ++ e). split; [cbn [app]; rewrite <- app_assoc; reflexivity |].
        split; [constructor; auto | reflexivity]. }
      assert (t = 7) by lia. subst t.
      destruct (Z.ltb_spec ai 24).
      { injection H as <- <-. inversion A; subst; try lia. exists (Simple nn), [224 + nn]. split; [reflexivity |]. split; [constructor; auto | reflexivity]. }
      destruct (Z.eqb_spec ai 24).
      { destruct (Z.ltb_spec nn 32); [discriminate |]. injection H as <- <-. inversion A; subst; try lia.
        destruct a as [| x [| ? ?]]; try discriminate. unfold value256 in *. cbn in *.
        exists (Simple x), [248; x]. split; [reflexivity |]. split; [constructor | reflexivity].
        inversion Ba; subst. unfold is_byte in *. lia. }
      injection H as <- <-. inversion A; subst; try lia.
      * exists (Float 2 (value256 a)), (249 :: a). split; [reflexivity |]. split; [constructor; auto | reflexivity].
      * exists (Float 4 (value256 a)), (250 :: a). split; [reflexivity |]. split; [constructor; auto | reflexivity].
      * exists (Float 8 (value256 a)), (251 :: a). split; [reflexivity |]. split; [constructor; auto | reflexivity].
    + intros n d l r B Hn H. cbn [parse_list] in H. destruct (Z.leb_spec n 0).
      { injection H as <- <-. exists [], []. repeat split; [constructor | cbn; lia]. }
      destruct (parse f d) as [[v d1] |] eqn:P; [| discriminate].
      apply IH1 in P as (i & e & -> & E & ->); auto. apply bytes_ok_app in B as [_ B].
      destruct (parse_list f (n - 1) d1) as [[l' r'] |] eqn:P; [| discriminate]. injection H as <- <-.
      apply IH2 in P as (is & e' & -> & E' & -> & L); [| auto | lia].
      exists (i :: is), (e ++ e'). split; [apply app_assoc |]. split; [constructor; auto |]. split; [reflexivity | cbn [length]; lia].
    + intros n d l r B Hn H. cbn [parse_pairs] in H. destruct (Z.leb_spec n 0).
      { injection H as <- <-. exists [], []. repeat split; [constructor | cbn; lia]. }
      destruct (parse f d) as [[k d1] |] eqn:P; [| discriminate].
      apply IH1 in P as (ik & ek & -> & Ek & ->); auto. apply bytes_ok_app in B as [_ B].
      destruct (parse f d1) as [[v d2] |] eqn:P; [| discriminate].
      apply IH1 in P as (i & e & -> & E & ->); auto. apply bytes_ok_app in B as [_ B].
      destruct (parse_pairs f (n - 1) d2) as [[l' r'] |] eqn:P; [| discriminate]. injection H as <- <-.
      apply IH3 in P as (is & e' & -> & E' & -> & L); [| auto | lia].
      exists ((ik, i) :: is), (ek ++ e ++ e'). split; [rewrite <- !app_assoc; reflexivity |]. split; [constructor; auto |]. split; [reflexivity | cbn [length]; lia].
    + intros d l r B H. destruct d as [| ib d0]; [discriminate |]. cbn [parse_until] in H. destruct (Z.eqb_spec ib 255).
      { injection H as <- <-. subst. exists [], []. repeat split. constructor. }
      destruct (parse f (ib :: d0)) as [[v d1] |] eqn:P; [| discriminate].
      apply IH1 in P as (i & e & Ed & E & ->); auto. rewrite Ed in B |- *. apply bytes_ok_app in B as [_ B].
      destruct (parse_until f d1) as [[l' r'] |] eqn:P; [| discriminate]. injection H as <- <-.
      apply IH4 in P as (is & e' & -> & E' & ->); auto.
      exists (i :: is), (e ++ e'). split; [rewrite <- app_assoc; reflexivity |]. split; [constructor; auto | reflexivity].
    + intros d l r B H. destruct d as [| ib d0]; [discriminate |]. cbn [parse_pairs_until] in H. destruct (Z.eqb_spec ib 255).
      { injection H as <- <-. subst. exists [], []. repeat split. constructor. }
      destruct (parse f (ib :: d0)) as [[k d1] |] eqn:P; [| discriminate].
      apply IH1 in P as (ik & ek & Ed & Ek & ->); auto. rewrite Ed in B |- *. apply bytes_ok_app in B as [_ B].
      destruct (parse f d1) as [[v d2] |] eqn:P; [| discriminate].
      apply IH1 in P as (i & e & -> & E & ->); auto. apply bytes_ok_app in B as [_ B].
      destruct (parse_pairs_until f d2) as [[l' r'] |] eqn:P; [| discriminate]. injection H as <- <-.
      apply IH5 in P as (is & e' & -> & E' & ->); auto.
      exists ((ik, i) :: is), (ek ++ e ++ e'). split; [rewrite <- !app_assoc; reflexivity |]. split; [constructor; auto | reflexivity].
Qed.

(** ** Completeness *)
Scheme enc_mut := Induction for enc Sort Prop
  with encs_mut := Induction for encs Sort Prop
  with encp_mut := Induction for encp Sort Prop.
Combined Scheme enc_all from enc_mut, encs_mut, encp_mut.

Lemma parse_arg_complete ai n a r : arg ai n a -> parse_arg ai (a ++ r) = Some (n, r).
Proof.
  assert (T : forall l k, length l = k ->
     (if (length (l ++ r) <? k)%nat then None else Some (fold_left (fun a b => a * 256 + b) (firstn k (l ++ r)) 0, skipn k (l ++ r))) = Some (value256 l, r)).
  { intros l k <-. rewrite app_length. destruct (Nat.ltb_spec (length l + length r) (length l)); [lia |].
    rewrite firstn_app, skipn_app, Nat.sub_diag, firstn_all, skipn_all. cbn [firstn skipn app]. rewrite app_nil_r. reflexivity. }
  inversion 1; subst; unfold parse_arg.
  - destruct (Z.ltb_spec n 24); [reflexivity | lia].
  - apply (T a 1%nat); auto.
  - apply (T a 2%nat); auto.
  - apply (T a 4%nat); auto.
  - apply (T a 8%nat); auto.
Qed.

Lemma major_split t a : 0 <= a < 32 -> (32 * t + a) / 32 = t /\ (32 * t + a) mod 32 = a.
Proof. intros Ha. split; symmetry; [apply Z.div_unique with a | apply Z.mod_unique with t]; lia. Qed.

Lemma parse_chunks_complete m b e : 0 <= m < 8 -> chunks m b e -> forall f r, (length e <= f)%nat -> parse_chunks f m (e ++ r) = Some (b, r).
Proof.
  intros Hm H. induction H as [| ai a b bs l A Bb C IH]; intros f r F.
  - destruct f; [cbn in F; lia |]. reflexivity.
  - cbn [length] in F. rewrite !app_length in F. destruct f as [| f]; [lia |]. cbn [app parse_chunks].
    pose proof (arg_nonneg _ _ _ A) as [_ Ha]. destruct (major_split m ai ltac:(lia)) as [-> ->].
    destruct (Z.eqb_spec (32 * m + ai) 255); [lia |]. rewrite Z.eqb_refl. cbn [negb].
    rewrite <- !app_assoc, parse_arg_complete with (n := Z.of_nat (length b)) by auto.
    change (Z.of_nat (length b)) with (zlen b). rewrite parse_string_app, IH by lia. reflexivity.
Qed.

Lemma enc_first i e : enc i e -> exists x t, e = x :: t /\ x <> 255.
Proof.
  inversion 1; subst; try (match goal with H : arg _ _ _ |- _ => apply arg_nonneg in H end); eexists; eexists; (split; [reflexivity | lia]).
Qed.
Lemma enc_pos i e : enc i e -> (1 <= length e)%nat.
Proof. intros H. apply enc_first in H as (x & t & -> & _). cbn. lia. Qed.

Lemma parse_complete :
  (forall i e, enc i e -> forall f r, (2 * length e <= f + 1)%nat -> parse f (e ++ r) = Some (cval_of i, r)) /\
  (forall l d, encs l d -> (forall f r, (2 * length d <= f)%nat -> parse_list f (Z.of_nat (length l)) (d ++ r) = Some (map cval_of l, r)) /\
     (forall f r, (2 * length d + 1 <= f)%nat -> parse_until f (d ++ 255 :: r) = Some (map cval_of l, r))) /\
  (forall l d, encp l d -> (forall f r, (2 * length d <= f)%nat -> parse_pairs f (Z.of_nat (length l)) (d ++ r) = Some (map (fun '(k, v) => (cval_of k, cval_of v)) l, r)) /\
     (forall f r, (2 * length d + 1 <= f)%nat -> parse_pairs_until f (d ++ 255 :: r) = Some (map (fun '(k, v) => (cval_of k, cval_of v)) l, r))).
Proof.
  apply enc_all.
  - intros ai n a A f r F. destruct f as [| f]; [cbn [length] in F; lia |]. pose proof (arg_nonneg _ _ _ A) as [_ Ha].
    destruct (major_split 0 ai ltac:(lia)) as [D M]. change (32 * 0 + ai) with ai in D, M. cbn [app parse]. rewrite D, M.
    destruct (Z.eqb_spec ai 31); [lia |]. rewrite parse_arg_complete with (n := n) by auto. reflexivity.
  - intros ai n a A f r F. destruct f as [| f]; [cbn [length] in F; lia |]. pose proof (arg_nonneg _ _ _ A) as [_ Ha].
    destruct (major_split 1 ai ltac:(lia)) as [D M]. change (32 * 1) with 32 in *. cbn [app parse]. rewrite D, M.
    destruct (Z.eqb_spec ai 31); [lia |]. rewrite parse_arg_complete with (n := n) by auto. reflexivity.
  - intros ai a b A Bb f r F. destruct f as [| f]; [cbn [length] in F; lia |]. pose proof (arg_nonneg _ _ _ A) as [_ Ha].
    destruct (major_split 2 ai ltac:(lia)) as [D M]. change (32 * 2) with 64 in *. cbn [app parse]. rewrite D, M.
    destruct (Z.eqb_spec ai 31); [lia |]. rewrite <- app_assoc, parse_arg_complete with (n := zlen b) by auto. cbn [Z.eqb].
    rewrite parse_string_app. reflexivity.
  - intros b l C f r F. destruct f as [| f]; [cbn [length] in F; lia |]. cbn [app parse]. change (95 / 32) with 2. change (95 mod 32) with 31. cbn [Z.eqb Pos.eqb].
    rewrite parse_chunks_complete with (b := b); auto; [lia |]. cbn [length] in F. lia.
  - intros ai a b A Bb f r F. destruct f as [| f]; [cbn [length] in F; lia |]. pose proof (arg_nonneg _ _ _ A) as [_ Ha].
    destruct (major_split 3 ai ltac:(lia)) as [D M]. change (32 * 3) with 96 in *. cbn [app parse]. rewrite D, M.
    destruct (Z.eqb_spec ai 31); [lia |]. rewrite <- app_assoc, parse_arg_complete with (n := zlen b) by auto. cbn [Z.eqb].
    rewrite parse_string_app. reflexivity.
  - intros b l C f r F. destruct f as [| f]; [cbn [length] in F; lia |]. cbn [app parse]. change (127 / 32) with 3. change (127 mod 32) with 31. cbn [Z.eqb Pos.eqb].
    rewrite parse_chunks_complete with (b := b); auto; [lia |]. cbn [length] in F. lia.
  - intros ai a l d A E [IH _] f r F. cbn [length] in F. rewrite app_length in F. destruct f as [| f]; [lia |]. pose proof (arg_nonneg _ _ _ A) as [_ Ha].
    destruct (major_split 4 ai ltac:(lia)) as [D M]. change (32 * 4) with 128 in *. cbn [app parse]. rewrite D, M.
    destruct (Z.eqb_spec ai 31); [lia |]. rewrite <- app_assoc, parse_arg_complete with (n := Z.of_nat (length l)) by auto. cbn [Z.eqb].
    rewrite IH by lia. reflexivity.
  - intros l d E [_ IH] f r F. cbn [length] in F. rewrite app_length in F. cbn [length] in F. destruct f as [| f]; [lia |].
    cbn [app parse]. change (159 / 32) with 4. change (159 mod 32) with 31. cbn [Z.eqb Pos.eqb].
    rewrite <- app_assoc. cbn [app]. rewrite IH by lia. reflexivity.
  - intros ai a l d A E [IH _] f r F. cbn [length] in F. rewrite app_length in F. destruct f as [| f]; [lia |]. pose proof (arg_nonneg _ _ _ A) as [_ Ha].
    destruct (major_split 5 ai ltac:(lia)) as [D M]. change (32 * 5) with 160 in *. cbn [app parse]. rewrite D, M.
    destruct (Z.eqb_spec ai 31); [lia |]. rewrite <- app_assoc, parse_arg_complete with (n := Z.of_nat (length l)) by auto. cbn [Z.eqb].
    rewrite IH by lia. reflexivity.
  - intros l d E [_ IH] f r F. cbn [length] in F. rewrite app_length in F. cbn [length] in F. destruct f as [| f]; [lia |].
    cbn [app parse]. change (191 / 32) with 5. change (191 mod 32) with 31. cbn [Z.eqb Pos.eqb].
    rewrite <- app_assoc. cbn [app]. rewrite IH by lia. reflexivity.
  - intros ai t a v d A E IH f r F. cbn [length] in F. rewrite app_length in F. destruct f as [| f]; [lia |]. pose proof (arg_nonneg _ _ _ A) as [_ Ha].
    destruct (major_split 6 ai ltac:(lia)) as [D M]. change (32 * 6) with 192 in *. cbn [app parse]. rewrite D, M.
    destruct (Z.eqb_spec ai 31); [lia |]. rewrite <- app_assoc, parse_arg_complete with (n := t) by auto. cbn [Z.eqb].
    rewrite IH by lia. reflexivity.
  - intros n Hn f r F. destruct f as [| f]; [cbn [length] in F; lia |].
    destruct (major_split 7 n ltac:(lia)) as [D M]. change (32 * 7) with 224 in *. cbn [app parse]. rewrite D, M.
    destruct (Z.eqb_spec n 31); [lia |]. unfold parse_arg. replace (n <? 24) with true by lia. reflexivity.
  - intros n Hn f r F. destruct f as [| f]; [cbn [length] in F; lia |]. cbn [app parse].
    change (248 / 32) with 7. change (248 mod 32) with 24. cbn [Z.eqb Pos.eqb].
    change (parse_arg 24 (n :: r)) with (Some (0 * 256 + n, r)). cbn [Z.eqb Z.mul Z.add].
    destruct (Z.ltb_spec n 32); [lia |]. reflexivity.
  - intros l L B f r F. destruct f as [| f]; [cbn [length] in F; lia |]. cbn [app parse].
    change (249 / 32) with 7. change (249 mod 32) with 25. cbn [Z.eqb Pos.eqb].
    rewrite parse_arg_complete with (n := value256 l) by (constructor; auto). reflexivity.
  - intros l L B f r F. destruct f as [| f]; [cbn [length] in F; lia |]. cbn [app parse].
    change (250 / 32) with 7. change (250 mod 32) with 26. cbn [Z.eqb Pos.eqb].
    rewrite parse_arg_complete with (n := value256 l) by (constructor; auto). reflexivity.
  - intros l L B f r F. destruct f as [| f]; [cbn [length] in F; lia |]. cbn [app parse].
    change (251 / 32) with 7. change (251 mod 32) with 27. cbn [Z.eqb Pos.eqb].
    rewrite parse_arg_complete with (n := value256 l) by (constructor; auto). reflexivity.
  - split; intros f r F; [destruct f; reflexivity |]. destruct f; [cbn in F; lia | reflexivity].
  - intros v l d d' E IH _ [IH1 IH2]. pose proof (enc_pos _ _ E). split; intros f r F; rewrite app_length in F; (destruct f as [| f]; [lia |]).
    + cbn [parse_list length map]. destruct (Z.leb_spec (Z.of_nat (S (length l))) 0); [lia |].
      rewrite <- app_assoc, IH by lia. replace (Z.of_nat (S (length l)) - 1) with (Z.of_nat (length l)) by lia. rewrite IH1 by lia. reflexivity.
    + rewrite <- app_assoc. pose proof (enc_first _ _ E) as (x & t & Ex & Nx).
      specialize (IH f (d' ++ 255 :: r) ltac:(lia)). rewrite Ex in IH |- *. cbn [app parse_until map] in *.
      destruct (Z.eqb_spec x 255); [contradiction |]. rewrite IH, IH2 by lia. reflexivity.
  - split; intros f r F; [destruct f; reflexivity |]. destruct f; [cbn in F; lia | reflexivity].
  - intros k v l d1 d2 d' Ek IHk E IH _ [IH1 IH2]. pose proof (enc_pos _ _ E). pose proof (enc_pos _ _ Ek).
    split; intros f r F; rewrite !app_length in F; (destruct f as [| f]; [lia |]).
    + cbn [parse_pairs length map]. destruct (Z.leb_spec (Z.of_nat (S (length l))) 0); [lia |].
      rewrite <- !app_assoc, IHk, IH by lia. replace (Z.of_nat (S (length l)) - 1) with (Z.of_nat (length l)) by lia. rewrite IH1 by lia. reflexivity.
    + rewrite <- !app_assoc. pose proof (enc_first _ _ Ek) as (x & t & Ex & Nx).
      specialize (IHk f (d2 ++ d' ++ 255 :: r) ltac:(lia)). rewrite Ex in IHk |- *. cbn [app parse_pairs_until map] in *.
      destruct (Z.eqb_spec x 255); [contradiction |]. rewrite IHk, IH, IH2 by lia. reflexivity.
Qed.

Lemma parse_item_iff d v : bytes_ok d ->
  (parse_item d = Some v <-> exists i e r, d = e ++ r /\ enc i e /\ v = cval_of i).
Proof.
  intros B. unfold parse_item. split.
  - destruct (parse (2 * length d + 2) d) as [[v' r] |] eqn:P; [| discriminate]. intros H. injection H as <-.
    apply (proj1 (parse_sound _)) in P as (i & e & -> & E & ->); auto. exists i, e, r. auto.
  - intros (i & e & r & -> & E & ->). rewrite (proj1 parse_complete i e E); [reflexivity |]. rewrite app_length. lia.
Qed.

(** [cval_of] loses nothing, so an input has at most one reading. *)
Lemma cval_of_inj i : forall j, cval_of i = cval_of j -> i = j.
Proof.
  induction i as [n | n | b | b | l IH | l IH | t v IH | n | w n] using item_ind'; intros [] E; cbn in E; try discriminate; try (injection E; intros; subst; reflexivity).
  - injection E as E. f_equal. revert l0 E. induction IH as [| x l Hx _ IHl]; intros [| y l0] E; try discriminate; [reflexivity |].
    cbn in E. injection E as E1 E2. f_equal; auto.
  - injection E as E. f_equal. revert l0 E. induction IH as [| [x x'] l [Hx Hx'] _ IHl]; intros [| [y y'] l0] E; try discriminate; [reflexivity |].
    cbn in E. injection E as E1 E2 E3. f_equal; auto. f_equal; auto.
  - injection E as -> E. f_equal. auto.
Qed.

Lemma enc_unique i j e f r s : bytes_ok (e ++ r) -> enc i e -> enc j f -> e ++ r = f ++ s -> i = j /\ e = f.
Proof.
  intros B E F H.
  pose proof (proj1 parse_complete i e E (2 * length (e ++ r) + 2)%nat r ltac:(rewrite app_length; lia)) as P.
  pose proof (proj1 parse_complete j f F (2 * length (e ++ r) + 2)%nat s ltac:(rewrite H, app_length; lia)) as Q.
  rewrite H in P at 2. rewrite P in Q. injection Q as Q1 Q2. split; [apply cval_of_inj; auto |].
  subst s. apply app_inv_tail in H. exact H.
Qed.

(** ** Limits *)
Lemma forallb_map {A B} (f : B -> bool) (g : A -> B) l : forallb f (map g l) = forallb (fun x => f (g x)) l.
Proof. induction l; cbn; congruence. Qed.
Lemma fold_max_le {A} (f : A -> Z) z l n : fold_right (fun v m => Z.max (f v) m) z l <= n <-> z <= n /\ Forall (fun v => f v <= n) l.
Proof.
  induction l as [| x l IH]; cbn [fold_right]; [split; [intros H; split; [exact H | constructor] | intros [H _]; exact H] |].
  rewrite Z.max_lub_iff, IH. split; [intros (A1 & A2 & A3); auto | intros [A1 A2]; inversion A2; auto].
Qed.
Lemma nesting_nonneg i : 0 <= nesting i.
Proof.
  induction i as [n | n | b | b | l _ | l _ | t v IH | n | w n] using item_ind'; cbn [nesting]; try lia.
  - assert (0 <= fold_right (fun v m => Z.max (nesting v) m) 0 l) by (induction l; cbn [fold_right]; lia). lia.
  - assert (0 <= fold_right (fun '(k, v) m => Z.max (Z.max (nesting k) (nesting v)) m) 0 l) by (induction l as [| [k v] l IHl]; cbn [fold_right]; lia). lia.
  - destruct v; lia.
Qed.
Lemma limits_iff i : forall d, d <= 32 -> (limits_ok d (cval_of i) = true <-> d + nesting i <= 32 /\ widest i <= 131072).
Proof.
  induction i as [n | n | b | b | l IH | l IH | t v IH | n | w n] using item_ind'; intros d D; cbn [cval_of limits_ok nesting widest]; try (split; [intros _; lia | reflexivity]).
  - rewrite !andb_true_iff, !Z.leb_le. unfold zlen. rewrite map_length. split.
    + intros [[A B] C]. rewrite forallb_map in C. split.
      * enough (fold_right (fun v m => Z.max (nesting v) m) 0 l <= 32 - d - 1) by lia. apply fold_max_le. split; [lia |].
        rewrite Forall_forall in *. rewrite forallb_forall in C. intros v Hv. specialize (C v Hv). apply (IH v Hv (d + 1)) in C; lia.
      * apply fold_max_le. split; [exact B |]. rewrite Forall_forall in *. rewrite forallb_forall in C. intros v Hv. specialize (C v Hv). apply (IH v Hv (d + 1)) in C; lia.
    + intros [A B]. assert (A' : fold_right (fun v m => Z.max (nesting v) m) 0 l <= 31 - d) by lia. apply fold_max_le in A' as [A0 A1]. apply fold_max_le in B as [B0 B1]. split; [split; [lia | exact B0] |].
      rewrite forallb_map. apply forallb_forall. intros v Hv. rewrite Forall_forall in *. apply (IH v Hv); [lia |]. specialize (A1 v Hv). specialize (B1 v Hv). cbn beta in *. lia.
  - rewrite !andb_true_iff, !Z.leb_le. unfold zlen. rewrite map_length.
    assert (EN : fold_right (fun '(k, v) m => Z.max (Z.max (nesting k) (nesting v)) m) 0 l = fold_right (fun kv m => Z.max (Z.max (nesting (fst kv)) (nesting (snd kv))) m) 0 l) by (clear; induction l as [| [k v] l IHl]; cbn [fold_right fst snd]; congruence).
    assert (EW : forall z, fold_right (fun '(k, v) m => Z.max (Z.max (widest k) (widest v)) m) z l = fold_right (fun kv m => Z.max (Z.max (widest (fst kv)) (widest (snd kv))) m) z l) by (clear; intros z; induction l as [| [k v] l IHl]; cbn [fold_right fst snd]; congruence).
    rewrite EN, EW. clear EN EW. rewrite forallb_map. split.
    + intros [[A B] C]. rewrite Forall_forall in IH. rewrite forallb_forall in C.
      assert (Q : forall kv, In kv l -> (d + 1 + nesting (fst kv) <= 32 /\ widest (fst kv) <= 131072) /\ (d + 1 + nesting (snd kv) <= 32 /\ widest (snd kv) <= 131072)).
      { intros [k v] H. specialize (C _ H). cbn beta iota in C. apply andb_true_iff in C as [C1 C2]. destruct (IH _ H) as [I1 I2]. cbn [fst snd] in *. split; [apply I1 | apply I2]; auto; lia. }
      split.
      * enough (fold_right (fun kv m => Z.max (Z.max (nesting (fst kv)) (nesting (snd kv))) m) 0 l <= 31 - d) by lia. apply fold_max_le. split; [lia |]. apply Forall_forall. intros kv H. specialize (Q kv H). lia.
      * apply fold_max_le. split; [exact B |]. apply Forall_forall. intros kv H. specialize (Q kv H). lia.
    + intros [A B]. assert (A' : fold_right (fun kv m => Z.max (Z.max (nesting (fst kv)) (nesting (snd kv))) m) 0 l <= 31 - d) by lia. apply fold_max_le in A' as [A0 A1]. apply fold_max_le in B as [B0 B1]. split; [split; [lia | exact B0] |].
      apply forallb_forall. intros [k v] H. rewrite Forall_forall in *. specialize (A1 _ H). specialize (B1 _ H). destruct (IH _ H) as [I1 I2]. cbn [fst snd] in *. apply andb_true_iff. split; [apply I1 | apply I2]; lia.
  - pose proof (nesting_nonneg v). destruct v; cbn [cval_of] in *; try (match goal with |- context [nesting ?x + 0] => rewrite (Z.add_0_r (nesting x)) end; apply IH; exact D).
    rewrite andb_true_iff, Z.leb_le. split; [intros [A B]; apply IH in B; lia | intros A; split; [lia | apply IH; lia]].
Qed.
Lemma read_item_iff d v : bytes_ok d ->
  (read_item d = Some v <-> exists i e r, d = e ++ r /\ enc i e /\ readable i /\ v = cval_of i).
Proof.
  intros B. unfold read_item. split.
  - destruct (parse_item d) as [x |] eqn:P; [| discriminate]. apply parse_item_iff in P as (i & e & r & -> & E & ->); auto. destruct (limits_ok 0 (cval_of i)) eqn:L; [| discriminate]. intros [= <-].
    apply limits_iff in L as [L1 L2]; [| lia]. exists i, e, r. split; [reflexivity |]. split; [exact E |]. split; [split; lia | reflexivity].
  - intros (i & e & r & -> & E & [L1 L2] & ->). rewrite (proj2 (parse_item_iff (e ++ r) (cval_of i) B)) by (exists i, e, r; auto). rewrite (proj2 (limits_iff i 0 ltac:(lia))) by lia. reflexivity.
Qed.
Lemma read_item_cbor i r : item_ok i -> readable i -> read_item (cbor i ++ r) = Some (cval_of i).
Proof. intros I [L1 L2]. unfold read_item. rewrite parse_item_cbor by auto. rewrite (proj2 (limits_iff i 0 ltac:(lia))) by lia. reflexivity. Qed.
