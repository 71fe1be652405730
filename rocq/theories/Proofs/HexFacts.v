From Verif.Model Require Import Base Hex.
From Verif.Spec Require Import HexSpec.
From Verif.Proofs Require Import Util.

Lemma from_hex_spec c d : from_hex_char c = Some d <-> 0 <= d < 16 /\ hex_fold c = hex_digit d.
Proof.
  unfold from_hex_char, hex_fold, hex_digit.
  destruct (Z.leb_spec 48 c), (Z.leb_spec c 57), (Z.leb_spec 97 c), (Z.leb_spec c 102), (Z.leb_spec 65 c), (Z.leb_spec c 70), (Z.ltb_spec d 10);
    cbn [andb]; split; intros E; try discriminate; try (injection E as <-); try lia; try (f_equal; lia).
Qed.

Lemma nibbles x y : 0 <= x < 16 -> 0 <= y < 16 -> Z.lor (u8 (Z.shiftl x 4)) y = 16 * x + y.
Proof.
  intros Hx Hy. rewrite Z.shiftl_mul_pow2 by lia. rewrite u8_id by lia.
  rewrite lor_add by lia. lia.
Qed.

Lemma list_pair_ind (P : list Z -> Prop) : P [] -> (forall a, P [a]) -> (forall a b l, P l -> P (a :: b :: l)) -> forall l, P l.
Proof.
  intros H0 H1 H2 l. enough (P l /\ forall a, P (a :: l)) by tauto.
  induction l as [| x l [IH1 IH2]]; split; auto.
Qed.

Lemma hex_decode_cases a b l :
  hex_decode (a :: b :: l) =
  match from_hex_char a, from_hex_char b with
  | Some x, Some y => do r <- hex_decode l; Ok (Z.lor (u8 (Z.shiftl x 4)) y :: r)
  | _, _ => Err EHexByte
  end.
Proof.
  unfold hex_decode. cbn [hex_decode_prefix]. destruct (from_hex_char a), (from_hex_char b); try reflexivity.
  destruct (hex_decode_prefix l) as [r [e |]]; reflexivity.
Qed.

Lemma div16 x y : 0 <= x < 16 -> 0 <= y < 16 -> (16 * x + y) / 16 = x /\ (16 * x + y) mod 16 = y.
Proof.
  intros. split; symmetry; [apply Z.div_unique with y | apply Z.mod_unique with x]; lia.
Qed.

(** hex.DecodeString accepts exactly the hexadecimal texts. *)
Lemma hex_decode_iff s : forall b, hex_decode s = Ok b <-> bytes_ok b /\ map hex_fold s = hex_of b.
Proof.
  induction s as [| a | a c s IH] using list_pair_ind; intros b.
  - split; intros H.
    + injection H as <-. split; [constructor | reflexivity].
    + destruct H as [_ H]. destruct b; [reflexivity | discriminate].
  - split; intros H.
    + unfold hex_decode in H. cbn in H. discriminate.
    + destruct H as [_ H]. destruct b; discriminate.
  - rewrite hex_decode_cases. split; intros H.
    + destruct (from_hex_char a) as [x |] eqn:E1; [| discriminate].
      destruct (from_hex_char c) as [y |] eqn:E2; [| discriminate].
      apply from_hex_spec in E1 as [R1 E1], E2 as [R2 E2].
      rewrite nibbles in H by auto.
      apply bind_ok in H as (r & H & E). assert (b = (16 * x + y) :: r) by congruence. subst b. apply IH in H as [B H].
      destruct (div16 x y R1 R2) as [D M].
      split; [constructor; [unfold is_byte; lia | auto] |].
      cbn [map hex_of flat_map app]. rewrite D, M, E1, E2, H. reflexivity.
    + destruct H as [B H]. destruct b as [| v b]; [discriminate |]. inversion B; subst.
      cbn [map hex_of flat_map app] in H. injection H as E1 E2 H. unfold is_byte in *.
      pose proof (Z.div_mod v 16 ltac:(lia)). pose proof (Z.mod_pos_bound v 16 ltac:(lia)).
      assert (R : 0 <= v / 16 < 16) by lia.
      rewrite (proj2 (from_hex_spec a (v / 16))) by auto.
      rewrite (proj2 (from_hex_spec c (v mod 16))) by auto.
      rewrite (proj2 (IH b)) by auto. cbn [bind]. rewrite nibbles by auto. do 2 f_equal. lia.
Qed.

Lemma hex_of_length b : length (hex_of b) = (2 * length b)%nat.
Proof. induction b; cbn [hex_of flat_map app length] in *; auto. unfold hex_of in IHb. rewrite IHb. lia. Qed.

Lemma hex_encode_of b : bytes_ok b -> hex_encode b = hex_of b.
Proof.
  induction b as [| v b IH]; intros H; [reflexivity |]. inversion H; subst.
  change (hex_of (v :: b)) with ([hex_digit (v / 16); hex_digit (v mod 16)] ++ hex_of b). rewrite <- IH by auto.
  change (hex_encode (v :: b)) with ([nth (Z.to_nat (Z.shiftr v 4)) hextable 0; nth (Z.to_nat (Z.land v 15)) hextable 0] ++ hex_encode b).
  f_equal.
  assert (S : forallb (fun v => (nth (Z.to_nat (Z.shiftr v 4)) hextable 0 =? hex_digit (v / 16)) &&
    (nth (Z.to_nat (Z.land v 15)) hextable 0 =? hex_digit (v mod 16))) (zrange 256) = true) by (vm_compute; reflexivity).
  apply (sweep 256 _ S) in H2. apply andb_prop in H2 as [A B]. apply Z.eqb_eq in A, B. rewrite A, B. reflexivity.
Qed.

Lemma hex_fold_digit v : 0 <= v < 16 -> hex_fold (hex_digit v) = hex_digit v.
Proof.
  unfold hex_fold, hex_digit. intros. destruct (Z.ltb_spec v 10);
  match goal with |- context [(?a <=? ?b) && (?c <=? ?d)] => destruct (Z.leb_spec a b), (Z.leb_spec c d) end; cbn [andb]; lia.
Qed.
Lemma hex_fold_of b : bytes_ok b -> map hex_fold (hex_of b) = hex_of b.
Proof.
  induction b as [| v b IH]; intros H; [reflexivity |]. inversion H; subst. unfold is_byte in *.
  cbn [hex_of flat_map app map]. unfold hex_of in IH. rewrite IH by auto.
  pose proof (Z.div_mod v 16 ltac:(lia)). pose proof (Z.mod_pos_bound v 16 ltac:(lia)).
  rewrite !hex_fold_digit by lia. reflexivity.
Qed.

Lemma hex_decode_err s : hex_decode s <> Panic.
Proof. unfold hex_decode. destruct (hex_decode_prefix s) as [? [? |]]; discriminate. Qed.

Lemma hex_chars b : bytes_ok b -> forall s, map hex_fold s = hex_of b -> forall c, In c s -> is_hex_char c.
Proof.
  intros B s E c Hc. assert (D : hex_decode s = Ok b) by (apply hex_decode_iff; auto). clear E B.
  revert b D Hc. induction s as [| a | a d s IH] using list_pair_ind; intros b D Hc.
  - destruct Hc.
  - unfold hex_decode in D. cbn in D. discriminate.
  - rewrite hex_decode_cases in D.
    destruct (from_hex_char a) as [x |] eqn:E1; [| discriminate].
    destruct (from_hex_char d) as [y |] eqn:E2; [| discriminate].
    apply bind_ok in D as (r & D & _).
    assert (K : forall c x, from_hex_char c = Some x -> is_hex_char c).
    { clear. intros c x. unfold from_hex_char, is_hex_char.
      destruct (Z.leb_spec 48 c), (Z.leb_spec c 57), (Z.leb_spec 97 c), (Z.leb_spec c 102), (Z.leb_spec 65 c), (Z.leb_spec c 70); cbn [andb]; intros; try discriminate; lia. }
    destruct Hc as [<- | [<- | Hc]]; eauto.
Qed.

Lemma from_hex_none c : from_hex_char c = None <-> ~ is_hex_char c.
Proof.
  unfold from_hex_char, is_hex_char.
  destruct (Z.leb_spec 48 c), (Z.leb_spec c 57), (Z.leb_spec 97 c), (Z.leb_spec c 102), (Z.leb_spec 65 c), (Z.leb_spec c 70); cbn [andb]; split; intros E; try discriminate; try reflexivity; lia.
Qed.
Lemma hex_prefix_nil s : (forall x y r, s = x :: y :: r -> ~ (is_hex_char x /\ is_hex_char y)) -> hex_prefix s [].
Proof. intros H. exists [], s. repeat split; auto. Qed.
Lemma hex_prefix_decode s : hex_prefix s (fst (hex_decode_prefix s)).
Proof.
  induction s as [| a | a c s IH] using list_pair_ind; cbn [hex_decode_prefix fst].
  - apply hex_prefix_nil. discriminate.
  - apply hex_prefix_nil. discriminate.
  - destruct (from_hex_char a) as [x |] eqn:Ea.
    2: { apply hex_prefix_nil. intros x y r [= <- <- <-] [H _]. apply from_hex_none in Ea. auto. }
    destruct (from_hex_char c) as [y |] eqn:Ec.
    2: { apply hex_prefix_nil. intros x' y r [= <- <- <-] [_ H]. apply from_hex_none in Ec. auto. }
    destruct (hex_decode_prefix s) as [l e]. cbn [fst] in *. destruct IH as (p & q & -> & M & Q).
    apply from_hex_spec in Ea as [R1 E1], Ec as [R2 E2]. rewrite nibbles by auto. destruct (div16 x y R1 R2) as [D M'].
    exists (a :: c :: p), q. split; [reflexivity |]. split; [| exact Q]. cbn [map hex_of flat_map app]. rewrite D, M', E1, E2, M. reflexivity.
Qed.
(** There is only one such prefix. *)
Lemma hex_fold_char c d : 0 <= d < 16 -> hex_fold c = hex_digit d -> is_hex_char c.
Proof. intros R E. pose proof (proj2 (from_hex_spec c d) (conj R E)) as H. destruct (from_hex_char c) eqn:Q; [| discriminate]. assert (~ ~ is_hex_char c) by (intros N; apply from_hex_none in N; congruence). unfold is_hex_char in *. lia. Qed.
Lemma hex_prefix_unique s b : bytes_ok b -> hex_prefix s b -> b = fst (hex_decode_prefix s).
Proof.
  intros B (p & q & -> & M & Q). revert p M. induction B as [| v b V B IH]; intros p M.
  - destruct p; [| discriminate]. cbn [app]. destruct q as [| x [| y r]]; [reflexivity | reflexivity |]. cbn [hex_decode_prefix].
    destruct (from_hex_char x) eqn:Ex; [| reflexivity]. destruct (from_hex_char y) eqn:Ey; [| reflexivity]. exfalso. apply (Q x y r eq_refl).
    apply from_hex_spec in Ex as [? ?], Ey as [? ?]. split; [apply (hex_fold_char x z) | apply (hex_fold_char y z0)]; auto.
  - destruct p as [| x [| y p]]; [discriminate | discriminate |]. cbn [map hex_of flat_map app] in M. injection M as E1 E2 M. unfold is_byte in *.
    pose proof (Z.div_mod v 16 ltac:(lia)). pose proof (Z.mod_pos_bound v 16 ltac:(lia)). assert (R : 0 <= v / 16 < 16) by lia.
    cbn [app hex_decode_prefix]. rewrite (proj2 (from_hex_spec x (v / 16))) by auto. rewrite (proj2 (from_hex_spec y (v mod 16))) by auto.
    specialize (IH p M). destruct (hex_decode_prefix (p ++ q)) as [l e]. cbn [fst] in *. subst b. rewrite nibbles by auto. f_equal. lia.
Qed.
