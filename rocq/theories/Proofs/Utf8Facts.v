(** UTF-8. *)
From Verif.Model Require Import Base Utf8.
From Verif.Spec Require Import Utf8Spec.
From Verif.Proofs Require Import Util.
Open Scope Z_scope.

Ltac zdm := Z.to_euclidean_division_equations; lia.

(** ** UTF-8 *)
Lemma utf8_range c b : utf8 c b -> (c < 128 /\ b = [c]) \/ (128 <= c /\ exists x r, b = x :: r /\ 194 <= x).
Proof. intros H. destruct H; [left; split; [lia | reflexivity] | right ..]; (split; [lia |]; eexists; eexists; split; [reflexivity | lia]). Qed.
Lemma encode_utf8 c b : utf8 c b -> encode_rune c = b.
Proof.
  intros H. destruct H; unfold encode_rune.
  - rewrite (proj2 (Z.ltb_lt c 128)) by lia. reflexivity.
  - rewrite (proj2 (Z.ltb_ge (a * 64 + b) 128)), (proj2 (Z.ltb_lt (a * 64 + b) 2048)) by lia. replace ((a * 64 + b) / 64) with a by zdm. replace ((a * 64 + b) mod 64) with b by zdm. reflexivity.
  - set (n := (a * 64 + b) * 64 + c) in *. rewrite (proj2 (Z.ltb_ge n 128)), (proj2 (Z.ltb_ge n 2048)), (proj2 (Z.ltb_lt n 65536)) by lia. replace (n / 4096) with a by zdm. replace (n / 64 mod 64) with b by zdm. replace (n mod 64) with c by zdm. reflexivity.
  - set (n := ((a * 64 + b) * 64 + c) * 64 + d) in *. rewrite (proj2 (Z.ltb_ge n 128)), (proj2 (Z.ltb_ge n 2048)), (proj2 (Z.ltb_ge n 65536)) by lia. replace (n / 262144) with a by zdm. replace (n / 4096 mod 64) with b by zdm. replace (n / 64 mod 64) with c by zdm. replace (n mod 64) with d by zdm. reflexivity.
Qed.
Lemma utf8_total c : scalar c -> utf8 c (encode_rune c).
Proof.
  intros S. assert (C : 0 <= c < 1114112) by (unfold scalar in S; lia). unfold encode_rune.
  destruct (Z.ltb_spec c 128); [constructor; lia |]. destruct (Z.ltb_spec c 2048).
  { replace c with (c / 64 * 64 + c mod 64) at 1 by zdm. constructor; zdm. }
  destruct (Z.ltb_spec c 65536).
  { replace c with ((c / 4096 * 64 + c / 64 mod 64) * 64 + c mod 64) at 1 by zdm. constructor; zdm. }
  replace c with (((c / 262144 * 64 + c / 4096 mod 64) * 64 + c / 64 mod 64) * 64 + c mod 64) at 1 by zdm. constructor; zdm.
Qed.
Ltac rng := unfold in_range; repeat match goal with |- context [?x <=? ?y] => destruct (Z.leb_spec x y) end; try lia; reflexivity.
Lemma decode_utf8 c b r : utf8 c b -> scalar c -> decode_rune (b ++ r) = (c, length b).
Proof.
  intros H S. unfold scalar in S. destruct H; cbn [app decode_rune length].
  - rewrite (proj2 (Z.ltb_lt c 128)) by lia. reflexivity.
  - rewrite (proj2 (Z.ltb_ge (192 + a) 128)) by lia. replace (in_range 194 223 (192 + a)) with true by (symmetry; rng). replace (in_range 128 191 (128 + b)) with true by (symmetry; rng). f_equal. lia.
  - rewrite (proj2 (Z.ltb_ge (224 + a) 128)) by lia. replace (in_range 194 223 (224 + a)) with false by (symmetry; rng). replace (in_range 224 239 (224 + a)) with true by (symmetry; rng).
    replace (in_range (if 224 + a =? 224 then 160 else 128) (if 224 + a =? 237 then 159 else 191) (128 + b)) with true by (symmetry; destruct (Z.eqb_spec (224 + a) 224), (Z.eqb_spec (224 + a) 237); rng).
    replace (in_range 128 191 (128 + c)) with true by (symmetry; rng). cbn [andb]. f_equal. lia.
  - rewrite (proj2 (Z.ltb_ge (240 + a) 128)) by lia. replace (in_range 194 223 (240 + a)) with false by (symmetry; rng). replace (in_range 224 239 (240 + a)) with false by (symmetry; rng). replace (in_range 240 244 (240 + a)) with true by (symmetry; rng).
    replace (in_range (if 240 + a =? 240 then 144 else 128) (if 240 + a =? 244 then 143 else 191) (128 + b)) with true by (symmetry; destruct (Z.eqb_spec (240 + a) 240), (Z.eqb_spec (240 + a) 244); rng).
    replace (in_range 128 191 (128 + c)) with true by (symmetry; rng). replace (in_range 128 191 (128 + d)) with true by (symmetry; rng). cbn [andb]. f_equal. lia.
Qed.
Lemma in_range_spec lo hi c : in_range lo hi c = true <-> lo <= c <= hi.
Proof. unfold in_range. lia. Qed.
Lemma decode_inv c r rr size : 128 <= c -> decode_rune (c :: r) = (rr, size) ->
  (rr = RuneError /\ size = 1%nat) \/ exists b t, c :: r = b ++ t /\ utf8 rr b /\ scalar rr /\ size = length b /\ 128 <= rr /\ Forall (fun x => 128 <= x) b.
Proof.
  intros C E. unfold decode_rune in E. rewrite (proj2 (Z.ltb_ge c 128)) in E by lia.
  destruct (in_range 194 223 c) eqn:R2; [| destruct (in_range 224 239 c) eqn:R3; [| destruct (in_range 240 244 c) eqn:R4]].
  - apply in_range_spec in R2. destruct r as [|c1 r]; [injection E as <- <-; auto |]. destruct (in_range 128 191 c1) eqn:A; [| injection E as <- <-; auto]. apply in_range_spec in A. injection E as <- <-. right. exists [c; c1], r.
    repeat split; try lia; [| left; lia | repeat constructor; lia]. replace c with (192 + (c - 192)) at 2 by lia. replace c1 with (128 + (c1 - 128)) at 2 by lia. constructor; lia.
  - apply in_range_spec in R3. destruct r as [|c1 [|c2 r]]; [injection E as <- <-; auto .. |].
    destruct (in_range _ _ c1 && in_range 128 191 c2) eqn:A; [| injection E as <- <-; auto]. apply andb_true_iff in A as [A B]. apply in_range_spec in A, B. injection E as <- <-. right. exists [c; c1; c2], r.
    assert (A' : 128 <= c1 <= 191) by (destruct (Z.eqb_spec c 224), (Z.eqb_spec c 237); lia). assert (A0 : c = 224 -> 160 <= c1) by (intros X; rewrite X in A; cbn in A; lia). assert (A1 : c = 237 -> c1 <= 159) by (intros X; rewrite X in A; cbn in A; lia). clear A C.
    replace ((c - 224) * 4096 + (c1 - 128) * 64 + (c2 - 128)) with (((c - 224) * 64 + (c1 - 128)) * 64 + (c2 - 128)) by lia.
    split; [reflexivity |]. split; [replace c with (224 + (c - 224)) at 2 by lia; replace c1 with (128 + (c1 - 128)) at 2 by lia; replace c2 with (128 + (c2 - 128)) at 2 by lia; constructor; lia |].
    split; [unfold scalar; lia |]. split; [reflexivity |]. split; [lia | repeat constructor; lia].
  - apply in_range_spec in R4. destruct r as [|c1 [|c2 [|c3 r]]]; [injection E as <- <-; auto .. |].
    destruct (in_range _ _ c1 && in_range 128 191 c2 && in_range 128 191 c3) eqn:A; [| injection E as <- <-; auto]. apply andb_true_iff in A as [A D]. apply andb_true_iff in A as [A B]. apply in_range_spec in A, B, D. injection E as <- <-. right. exists [c; c1; c2; c3], r.
    assert (A' : 128 <= c1 <= 191) by (destruct (Z.eqb_spec c 240), (Z.eqb_spec c 244); lia). assert (A0 : c = 240 -> 144 <= c1) by (intros X; rewrite X in A; cbn in A; lia). assert (A1 : c = 244 -> c1 <= 143) by (intros X; rewrite X in A; cbn in A; lia). clear A C.
    replace ((c - 240) * 262144 + (c1 - 128) * 4096 + (c2 - 128) * 64 + (c3 - 128)) with ((((c - 240) * 64 + (c1 - 128)) * 64 + (c2 - 128)) * 64 + (c3 - 128)) by lia.
    split; [reflexivity |]. split; [replace c with (240 + (c - 240)) at 2 by lia; replace c1 with (128 + (c1 - 128)) at 2 by lia; replace c2 with (128 + (c2 - 128)) at 2 by lia; replace c3 with (128 + (c3 - 128)) at 2 by lia; constructor; lia |].
    split; [unfold scalar; lia |]. split; [reflexivity |]. split; [lia | repeat constructor; lia].
  - injection E as <- <-. auto.
Qed.

Lemma utf8_length c b : utf8 c b -> (1 <= length b)%nat.
Proof. intros H. destruct H; cbn; lia. Qed.
Lemma decode_cases s : bytes_ok s -> s <> [] -> (let '(r, size) := decode_rune s in r = RuneError /\ size = 1%nat) \/
  exists c b t, s = b ++ t /\ utf8 c b /\ scalar c /\ decode_rune s = (c, length b).
Proof.
  intros B N. destruct s as [| c r]; [contradiction |]. inversion B as [| ? ? B1 _]; subst. unfold is_byte in B1. destruct (Z.lt_ge_cases c 128) as [L | L].
  - right. exists c, [c], r. split; [reflexivity |]. split; [constructor; lia |]. split; [unfold scalar; lia |]. cbn [decode_rune length]. rewrite (proj2 (Z.ltb_lt c 128)) by lia. reflexivity.
  - destruct (decode_rune (c :: r)) as [rr size] eqn:E. destruct (decode_inv c r rr size L E) as [[-> ->] | (b & t & Eb & U & SC & -> & _)]; [left; auto |].
    right. exists rr, b, t. auto.
Qed.
Lemma utf8_not_bad c b : utf8 c b -> (c =? RuneError) && (length b =? 1)%nat = false.
Proof. intros H. destruct H; cbn [length Nat.eqb]; rewrite ?andb_false_r; auto. rewrite andb_true_r. unfold RuneError. lia. Qed.
Lemma utf8_valid_iff s : bytes_ok s -> (utf8_valid s = true <-> utf8_text s).
Proof.
  unfold utf8_valid. assert (G : forall f s, (length s <= f)%nat -> bytes_ok s -> (utf8_valid_aux f s = true <-> utf8_text s)); [| intros B; apply G; auto].
  clear s. induction f as [| f IH]; intros s L B.
  - destruct s; [| cbn in L; lia]. split; [constructor | reflexivity].
  - destruct s as [| x s]; [split; [constructor | reflexivity] |]. destruct (decode_cases (x :: s) B) as [D | (c & b & t & E & U & SC & D)]; [discriminate | |].
    + cbn [utf8_valid_aux]. destruct (decode_rune (x :: s)) as [r size] eqn:ED. destruct D as [-> ->]. cbn [Z.eqb Pos.eqb Nat.eqb andb RuneError]. split; [discriminate |]. intros T. exfalso.
      inversion T as [| c b t SC U T' E]. rewrite <- E in ED. rewrite (decode_utf8 c b t U SC) in ED. pose proof (utf8_not_bad c b U) as N. injection ED as -> Eb. rewrite Eb in N. discriminate.
    + cbn [utf8_valid_aux]. rewrite D, (utf8_not_bad c b U), E. pose proof (utf8_length c b U) as LB. rewrite skipn_app, skipn_all, Nat.sub_diag. cbn [skipn app].
      assert (Lt : (length t <= f)%nat) by (apply (f_equal (@length Z)) in E; rewrite app_length in E; cbn [length] in *; lia).
      assert (Bt : bytes_ok t) by (rewrite E in B; apply bytes_ok_app in B; apply B). rewrite (IH t Lt Bt). split; [intros T; econstructor; eauto |].
      intros T. inversion T as [X | c' b' t' SC' U' T' E']; [destruct b; [cbn in LB; lia | discriminate] |].
      pose proof (decode_utf8 c b t U SC) as D1. pose proof (decode_utf8 c' b' t' U' SC') as D2. rewrite <- E' in D1. rewrite D2 in D1. injection D1 as -> EL.
      assert (t' = t). { assert (skipn (length b) (b' ++ t') = skipn (length b) (b ++ t)) as Q by (rewrite E'; reflexivity). rewrite <- EL in Q at 1. rewrite !skipn_app, !skipn_all, !Nat.sub_diag in Q. cbn [skipn app] in Q. exact Q. }
      subst. exact T'.
Qed.
