(** Decimal conversion, splitting into fields. *)
From Verif.Model Require Import Base Hex Network Tx Node.
From Verif.Spec Require Import NodeSpec.
From Verif.Proofs Require Import Util Utf8Facts FieldsFacts.

Lemma digits_value_eq s : digits_value s = value10 s.
Proof. unfold digits_value, value10. generalize 0. induction s as [| c s IH]; intros a; cbn [fold_left]; [reflexivity |]. rewrite IH. f_equal. lia. Qed.
Lemma value10_snoc s c : value10 (s ++ [c]) = 10 * value10 s + (c - 48).
Proof. unfold value10. rewrite fold_left_app. reflexivity. Qed.

Lemma decimal_aux_spec : forall f n acc, 0 <= n < 10 ^ Z.of_nat f -> (0 < f)%nat -> exists s, decimal_aux f n acc = s ++ acc /\ decimal_of s n.
Proof.
  induction f as [| f IH]; intros n acc Hn Hf; [lia |]. cbn [decimal_aux]. destruct (Z.ltb_spec n 10) as [L | L].
  - exists [48 + n mod 10]. split; [reflexivity |]. rewrite Z.mod_small by lia. split; [discriminate |]. split; [intros c [<- | []]; lia |].
    split; [unfold value10; cbn [fold_left]; lia |]. intros H. cbn [nth] in H. f_equal. exact H.
  - assert (F : (0 < f)%nat) by (destruct f; [cbn in Hn; lia | lia]).
    assert (B : 0 <= n / 10 < 10 ^ Z.of_nat f).
    { split; [apply Z.div_pos; lia |]. apply Z.div_lt_upper_bound; [lia |]. rewrite <- Z.pow_succ_r by lia. rewrite <- Nat2Z.inj_succ. lia. }
    destruct (IH (n / 10) ((48 + n mod 10) :: acc) B F) as (s & E & D1 & D2 & D3 & D4). exists (s ++ [48 + n mod 10]). split; [rewrite E, <- app_assoc; reflexivity |].
    pose proof (Z.mod_pos_bound n 10 ltac:(lia)). split; [destruct s; discriminate |].
    split; [intros c Hc; apply in_app_or in Hc as [Hc | [<- | []]]; [auto | lia] |].
    split; [rewrite value10_snoc, D3; pose proof (Z.div_mod n 10 ltac:(lia)); lia |].
    destruct s as [| x s]; [contradiction |]. cbn [app nth]. intros ->. specialize (D4 eq_refl). injection D4 as ->. change (value10 [48]) with 0 in D3.
    assert (0 < n / 10) by (apply Z.div_str_pos; lia). lia.
Qed.
Lemma decimal_spec n : 0 <= n < 10 ^ 20 -> decimal_of (decimal n) n.
Proof. intros H. destruct (decimal_aux_spec 20 n [] ltac:(exact H) ltac:(lia)) as (s & E & D). unfold decimal. rewrite E, app_nil_r. exact D. Qed.

Lemma digits_all s : (forall c, In c s -> 48 <= c <= 57) -> forallb is_digit s = true.
Proof. intros H. apply forallb_forall. intros c Hc. apply H in Hc. unfold is_digit. lia. Qed.
Lemma parse_uint_decimal s n bits : decimal_of s n -> 0 <= n < 2 ^ bits -> parse_uint s bits = Ok n.
Proof.
  intros (N & D & V & _) H. unfold parse_uint. destruct s; [contradiction |]. rewrite digits_all by auto. rewrite digits_value_eq, V.
  destruct (Z.ltb_spec n (2 ^ bits)); [reflexivity | lia].
Qed.
Lemma atoi_decimal s n : decimal_of s n -> 0 <= n < 2 ^ 63 -> atoi s = Ok n.
Proof.
  intros (N & D & V & _) H. unfold atoi. destruct s as [| c s]; [contradiction |]. pose proof (D c (or_introl eq_refl)).
  destruct (Z.eqb_spec c 45); [lia |]. destruct (Z.eqb_spec c 43); [lia |]. rewrite digits_all by auto. rewrite digits_value_eq, V.
  destruct (Z.leb_spec (- 2 ^ 63) n), (Z.ltb_spec n (2 ^ 63)); cbn [andb]; try reflexivity; lia.
Qed.
Lemma atoi_total s : atoi s = Err EAtoi \/ exists v, atoi s = Ok v /\ - 2 ^ 63 <= v < 2 ^ 63.
Proof.
  assert (G : forall neg t, let r := match t with [] => Err EAtoi | _ => if forallb is_digit t then
     let v := if (neg : bool) then - digits_value t else digits_value t in if (- 2 ^ 63 <=? v) && (v <? 2 ^ 63) then Ok v else Err EAtoi else Err EAtoi end in
     r = Err EAtoi \/ exists v, r = Ok v /\ - 2 ^ 63 <= v < 2 ^ 63).
  { intros neg t. destruct t; [left; reflexivity |]. destruct (forallb _ _); [| left; reflexivity]. cbv zeta.
    set (v := if neg then _ else _). destruct (Z.leb_spec (- 2 ^ 63) v); [| left; reflexivity]. destruct (Z.ltb_spec v (2 ^ 63)); [right; exists v; cbn [andb]; auto | left; reflexivity]. }
  unfold atoi. destruct s as [| c r]; [left; reflexivity |]. destruct (c =? 45); [apply (G true r) |]. destruct (c =? 43); [apply (G false r) | apply (G false (c :: r))].
Qed.

Lemma digits_forall t : forallb is_digit t = true <-> forall c, In c t -> 48 <= c <= 57.
Proof. split; [| apply digits_all]. intros H c Hc. rewrite forallb_forall in H. specialize (H c Hc). unfold is_digit in H. lia. Qed.
Lemma atoi_iff s n : atoi s = Ok n <-> int64_text s n.
Proof.
  assert (G : forall neg t m, match t with [] => Err EAtoi | _ => if forallb is_digit t then
     let v := if (neg : bool) then - digits_value t else digits_value t in if (- 2 ^ 63 <=? v) && (v <? 2 ^ 63) then Ok v else Err EAtoi else Err EAtoi end = Ok m <->
     digits t /\ m = (if neg then - value10 t else value10 t) /\ - 2 ^ 63 <= m < 2 ^ 63).
  { intros neg t m. rewrite <- digits_value_eq. unfold digits. rewrite <- digits_forall. destruct t as [| c t]; [split; [discriminate | intros [[Q _] _]; contradiction] |].
    destruct (forallb is_digit (c :: t)); [| split; [discriminate | intros [[_ Q] _]; discriminate]]. cbv zeta. set (v := if neg then _ else _).
    destruct (Z.leb_spec (- 2 ^ 63) v), (Z.ltb_spec v (2 ^ 63)); cbn [andb]; split.
    1: intros [= <-]; split; [split; [discriminate | reflexivity] | lia].
    1: intros (_ & -> & _); reflexivity.
    all: first [discriminate | intros (_ & -> & Q); exfalso; lia]. }
  unfold atoi, int64_text. destruct s as [| c r].
  - split; [discriminate |]. intros [(t & [T _] & [[<- _] | [[? _] | [? _]]]) _]; [contradiction | discriminate | discriminate].
  - destruct (Z.eqb_spec c 45) as [-> | N1]; [| destruct (Z.eqb_spec c 43) as [-> | N2]].
    + apply (iff_trans (G true r n)). split.
      * intros (D & E & R). split; [exists r; auto | auto].
      * intros [(t & D & [[<- _] | [[[=] _] | [[= <-] E]]]) R]; [exfalso; destruct D as [_ D]; specialize (D 45 (or_introl eq_refl)); lia | auto].
    + apply (iff_trans (G false r n)). split.
      * intros (D & E & R). split; [exists r; auto | auto].
      * intros [(t & D & [[<- _] | [[[= <-] E] | [[=] _]]]) R]; [exfalso; destruct D as [_ D]; specialize (D 43 (or_introl eq_refl)); lia | auto].
    + apply (iff_trans (G false (c :: r) n)). split.
      * intros (D & E & R). split; [exists (c :: r); auto | auto].
      * intros [(t & D & [[<- E] | [[[= ? ?] _] | [[= ? ?] _]]]) R]; [auto | contradiction | contradiction].
Qed.

(** ** fields *)
Lemma not_space c : 33 <= c <= 126 -> is_space c = false.
Proof. unfold is_space. intros H. destruct (Z.eqb_spec c 32), (Z.leb_spec 9 c), (Z.leb_spec c 13); cbn; try reflexivity; lia. Qed.
Lemma fields_word w cur rest : (forall c, In c w -> 33 <= c <= 126) -> fields_from (w ++ rest) cur = fields_from rest (rev w ++ cur).
Proof.
  revert cur. induction w as [| c w IH]; intros cur H; [reflexivity |]. cbn [app rev]. rewrite fields_ascii by (specialize (H c (or_introl eq_refl)); lia). rewrite not_space by (apply H; left; auto).
  rewrite IH by (intros; apply H; right; auto). rewrite <- app_assoc. reflexivity.
Qed.
Lemma fields_gap g rest : (forall c, In c g -> blank c) -> fields_from (g ++ rest) [] = fields_from rest [].
Proof.
  induction g as [| c g IH]; intros H; [reflexivity |]. cbn [app].
  assert (S : c < 128 /\ is_space c = true) by (destruct (H c (or_introl eq_refl)) as [<- | [<- | [<- | [<- | [<- | []]]]]]; split; reflexivity). rewrite fields_ascii by apply S. rewrite (proj2 S). cbn [flush app]. apply IH. intros; apply H; right; auto.
Qed.
Lemma fields_word_gap w g rest : word w -> blanks g -> fields (w ++ g ++ rest) = w :: fields rest.
Proof.
  intros [N W] [Ng G]. unfold fields. fold (fields_from (w ++ g ++ rest) []) (fields_from rest []). rewrite fields_word by auto. rewrite app_nil_r. destruct g as [| c g]; [contradiction |]. cbn [app].
  assert (S : c < 128 /\ is_space c = true) by (destruct (G c (or_introl eq_refl)) as [<- | [<- | [<- | [<- | [<- | []]]]]]; split; reflexivity). rewrite fields_ascii by apply S. rewrite (proj2 S). unfold flush.
  destruct (rev w) as [| x r] eqn:E; [apply (f_equal (@rev Z)) in E; rewrite rev_involutive in E; contradiction |].
  rewrite <- E, rev_involutive. cbn [app]. f_equal. apply fields_gap. intros; apply G; right; auto.
Qed.
Lemma fields_word_end w : word w -> fields w = [w].
Proof.
  intros [N W]. unfold fields. fold (fields_from w []). rewrite <- (app_nil_r w) at 1. rewrite fields_word by auto. rewrite app_nil_r, fields_from_nil. unfold flush.
  destruct (rev w) as [| x r] eqn:E; [apply (f_equal (@rev Z)) in E; rewrite rev_involutive in E; contradiction |]. rewrite <- E, rev_involutive. reflexivity.
Qed.
Lemma decimal_word s n : decimal_of s n -> word s.
Proof. intros (N & D & _). split; [exact N |]. intros c Hc. apply D in Hc. lia. Qed.
Lemma fields_row h ix am s : row h ix am s -> exists i a more, fields s = h :: i :: a :: more /\ decimal_of i ix /\ decimal_of a am.
Proof. intros (i & a & more & F & I & A). exists i, a, more. split; [apply fields_exact; exact F | auto]. Qed.

(** ** lines *)
Fixpoint inked (s : bytes) : nat := match s with [] => 0 | c :: r => if c =? 10 then inked r else S (inked r) end.
Lemma split_count s : (length (split_lines s) + inked s = S (length s))%nat /\ split_lines s <> [].
Proof.
  induction s as [| c s [IH N]]; [split; [reflexivity | discriminate] |]. cbn [split_lines inked length]. destruct (c =? 10).
  - cbn [length]. split; [lia | discriminate].
  - destruct (split_lines s) as [| l ls]; [contradiction |]. cbn [length] in *. split; [lia | discriminate].
Qed.
Lemma line_ink s l : In l (split_lines s) -> (length l <= inked s)%nat.
Proof.
  revert l. induction s as [| c s IH]; intros l H; [destruct H as [<- | []]; cbn; lia |]. cbn [split_lines inked] in *. destruct (c =? 10).
  - destruct H as [<- | H]; [cbn; lia | auto].
  - destruct (split_lines s) as [| x ls] eqn:E; [destruct H as [<- | []]; cbn; lia |]. destruct H as [<- | H].
    + specialize (IH x (or_introl eq_refl)). cbn. lia.
    + specialize (IH l (or_intror H)). lia.
Qed.
Lemma flush_count cur : length (flush cur) = match cur with [] => 0%nat | _ => 1%nat end.
Proof. destruct cur; reflexivity. Qed.
Lemma fields_count s : forall cur, (length (fields_from s cur) <= length s + match cur with [] => 0 | _ => 1 end)%nat.
Proof.
  induction s as [s IH] using (well_founded_induction (Wf_nat.well_founded_ltof _ (@length Z))). intros cur. destruct s as [| c s]; [rewrite fields_from_nil, flush_count; cbn; lia |].
  destruct (is_space (fst (Utf8.decode_rune (c :: s)))) eqn:SP.
  - apply decode_opens in SP; [| discriminate]. destruct SP as (x & b & t & W & U & E). apply utf8_length in U as L. rewrite E, (fields_white x b t cur W U), !app_length, flush_count.
    assert (LT : (length t < length (c :: s))%nat) by (rewrite E, app_length; lia). specialize (IH t LT []). cbn in IH. destruct cur; lia.
  - destruct (fields_other (c :: s) cur ltac:(discriminate)) as (b & t & E & N & -> & _); [intros O; apply decode_opens in O; [congruence | discriminate] |]. rewrite E, app_length.
    assert (LB : (1 <= length b)%nat) by (destruct b; [contradiction | cbn; lia]). assert (LT : (length t < length (c :: s))%nat) by (rewrite E, app_length; lia). specialize (IH t LT (rev b ++ cur)). destruct (rev b ++ cur); destruct cur; lia.
Qed.
