(** strings.Fields. *)
From Verif.Model Require Import Base Utf8 Hex Network Tx Node.
From Verif.Spec Require Import Utf8Spec FieldsSpec.
From Verif.Proofs Require Import Util Utf8Facts.

Lemma is_space_white c : is_space c = true <-> white c.
Proof.
  unfold is_space, white. rewrite !orb_true_iff, !andb_true_iff, !Z.eqb_eq, !Z.leb_le. cbn [In]. intuition lia.
Qed.
Lemma white_scalar c : white c -> scalar c.
Proof. unfold white, scalar. cbn [In]. lia. Qed.
(** The first byte of white space is no continuation byte; the others are. *)
Lemma utf8_bytes c b : utf8 c b -> exists x r, b = x :: r /\ (x < 128 \/ 192 <= x) /\ Forall (fun y => 128 <= y < 192) r.
Proof. intros H. destruct H; (eexists; eexists; split; [reflexivity |]; split; [lia |]; repeat constructor; lia). Qed.
Lemma opens_first x s : opens (x :: s) -> x < 128 \/ 192 <= x.
Proof. intros (c & b & r & _ & U & E). apply utf8_bytes in U as (y & t & -> & Y & _). injection E as -> _. exact Y. Qed.
Lemma opens_decode s : opens s -> exists c b r, white c /\ utf8 c b /\ s = b ++ r /\ decode_rune s = (c, length b).
Proof. intros (c & b & r & W & U & ->). exists c, b, r. repeat split; auto. apply decode_utf8; [exact U | apply white_scalar; exact W]. Qed.
Lemma decode_opens s : s <> [] -> is_space (fst (decode_rune s)) = true <-> opens s.
Proof.
  intros N. split.
  - destruct s as [| c r]; [contradiction |]. destruct (Z.lt_ge_cases c 128) as [L | L].
    + cbn [decode_rune]. rewrite (proj2 (Z.ltb_lt c 128) L). cbn [fst]. intros W. apply is_space_white in W. exists c, [c], r. repeat split; auto. constructor. unfold white in W. cbn [In] in W. lia.
    + destruct (decode_rune (c :: r)) as [x k] eqn:E. cbn [fst]. intros W. apply is_space_white in W. destruct (decode_inv c r x k L E) as [[-> _] | (b & t & Eb & U & _)].
      * exfalso. unfold white, RuneError in W. cbn [In] in W. lia.
      * exists x, b, t. auto.
  - intros O. apply opens_decode in O as (c & b & r & W & _ & _ & ->). cbn [fst]. apply is_space_white. exact W.
Qed.
(** A rune that is decoded: one byte, or a first byte and continuation bytes. *)
Lemma decode_size c r : exists b t, c :: r = b ++ t /\ snd (decode_rune (c :: r)) = length b /\ exists y, b = c :: y /\ Forall (fun y => 128 <= y < 192) y.
Proof.
  assert (ONE : snd (decode_rune (c :: r)) = 1%nat -> exists b t, c :: r = b ++ t /\ snd (decode_rune (c :: r)) = length b /\ exists y, b = c :: y /\ Forall (fun y => 128 <= y < 192) y).
  { intros E. exists [c], r. repeat split; [exact E |]. exists []. auto. }
  destruct (Z.lt_ge_cases c 128) as [L | L]; [apply ONE; cbn [decode_rune]; rewrite (proj2 (Z.ltb_lt c 128) L); reflexivity |].
  destruct (decode_rune (c :: r)) as [x k] eqn:E. cbn [snd] in *. destruct (decode_inv c r x k L E) as [[_ ->] | (b & t & Eb & U & _ & -> & _)]; [auto |].
  exists b, t. split; [exact Eb |]. split; [reflexivity |]. apply utf8_bytes in U as (z & y & -> & _ & F). injection Eb as <- _. exists y. auto.
Qed.

(** ** The loop *)
Definition flush (cur : bytes) : list bytes := match cur with [] => [] | _ => [rev cur] end.
Lemma fields_fuel s : forall f cur, (length s <= f)%nat -> fields_loop f s cur = fields_loop (length s) s cur.
Proof.
  induction s as [s IH] using (well_founded_induction (Wf_nat.well_founded_ltof _ (@length Z))). intros f cur L. destruct s as [| c r]; [destruct f; reflexivity |].
  destruct f as [| f]; [cbn in L; lia |]. cbn [length fields_loop]. destruct (decode_size c r) as (b & t & E & D & y & Eb & _). destruct (decode_rune (c :: r)) as [x k]. cbn [snd] in D. subst k.
  rewrite E, skipn_app, skipn_all, Nat.sub_diag. cbn [app skipn]. apply (f_equal (@length Z)) in E. rewrite app_length, Eb in E. cbn [length] in E, L.
  assert (T : (length t <= f /\ length t <= length r)%nat) by lia. destruct T as [T1 T2]. assert (LT : Wf_nat.ltof _ (@length Z) t (c :: r)) by (unfold Wf_nat.ltof; cbn [length]; lia).
  rewrite !(IH t LT f) by lia. rewrite !(IH t LT (length r)) by lia. reflexivity.
Qed.
Definition fields_from (s cur : bytes) : list bytes := fields_loop (length s) s cur.
Lemma fields_from_nil cur : fields_from [] cur = flush cur.
Proof. reflexivity. Qed.
Lemma fields_from_step b t c cur : c :: b ++ t <> [] -> decode_rune (c :: b ++ t) = (fst (decode_rune (c :: b ++ t)), length (c :: b)) ->
  fields_from (c :: b ++ t) cur = if is_space (fst (decode_rune (c :: b ++ t))) then flush cur ++ fields_from t [] else fields_from t (rev (c :: b) ++ cur).
Proof.
  intros _ D. unfold fields_from. cbn [length fields_loop]. rewrite D. cbn [fst]. set (x := fst _). clearbody x. clear D.
  change (c :: b ++ t) with ((c :: b) ++ t). rewrite skipn_app, firstn_app, skipn_all, firstn_all, Nat.sub_diag. cbn [firstn skipn]. rewrite app_nil_r. change ([] ++ t) with t.
  rewrite (fields_fuel t (length (b ++ t)) []), (fields_fuel t (length (b ++ t)) (rev (c :: b) ++ cur)) by (rewrite app_length; lia). reflexivity.
Qed.
Lemma fields_ascii c r cur : c < 128 -> fields_from (c :: r) cur = if is_space c then flush cur ++ fields_from r [] else fields_from r (c :: cur).
Proof.
  intros L. assert (D : decode_rune (c :: r) = (c, 1%nat)) by (cbn [decode_rune]; rewrite (proj2 (Z.ltb_lt c 128) L); reflexivity).
  pose proof (fields_from_step [] r c cur) as X. cbn [app rev length] in X. rewrite D in X. cbn [fst] in X. apply X; [discriminate | reflexivity].
Qed.
Lemma fields_white c b t cur : white c -> utf8 c b -> fields_from (b ++ t) cur = flush cur ++ fields_from t [].
Proof.
  intros W U. pose proof (decode_utf8 c b t U (white_scalar c W)) as D. pose proof U as V. apply utf8_bytes in V as (x & r & -> & _). cbn [app] in D |- *.
  rewrite fields_from_step; [| discriminate | rewrite D; reflexivity]. rewrite D. cbn [fst]. rewrite (proj2 (is_space_white c) W). reflexivity.
Qed.
Lemma fields_other s cur : s <> [] -> ~ opens s -> exists b t, s = b ++ t /\ b <> [] /\ fields_from s cur = fields_from t (rev b ++ cur) /\ Forall (fun y => 128 <= y < 192) (tl b).
Proof.
  intros N O. destruct s as [| c r]; [contradiction |]. destruct (decode_size c r) as (b & t & E & D & y & -> & F). exists (c :: y), t. split; [exact E |]. split; [discriminate |]. split; [| exact F].
  assert (W : is_space (fst (decode_rune (c :: r))) = false). { destruct (is_space _) eqn:X; [| reflexivity]. elim O. apply decode_opens; [discriminate | exact X]. }
  cbn [app] in E. rewrite E in *. rewrite fields_from_step; [rewrite W; reflexivity | discriminate |]. rewrite <- D. destruct (decode_rune _); reflexivity.
Qed.

(** ** Texts have one list of words, the one that is computed *)
Lemma fields_gap_from g t : gap g -> fields_from (g ++ t) [] = fields_from t [].
Proof. induction 1 as [| c b g W U _ IH]; [reflexivity |]. rewrite <- app_assoc, (fields_white c b) by assumption. exact IH. Qed.
(** What starts inside a word ends inside it. *)
Lemma inside b w t d : w <> [] -> b ++ d = w ++ t -> Forall (fun y => 128 <= y < 192) (tl b) -> t = [] \/ opens t -> exists e, w = b ++ e /\ d = e ++ t.
Proof.
  intros N. revert b. induction w as [| x w IH]; [contradiction |]. intros b E F T. destruct b as [| y b]; [exists (x :: w); auto |]. cbn [app] in E. injection E as <- E. cbn [tl] in F.
  destruct w as [| z w].
  - cbn [app] in E. destruct b as [| u b]; [exists []; auto |]. exfalso. destruct T as [-> | O]; [discriminate |]. rewrite <- E in O. cbn [app] in O. apply opens_first in O. inversion F; subst. lia.
  - destruct (IH ltac:(discriminate) b E) as (e & -> & ->); [destruct b; [constructor | inversion F; assumption] | exact T |]. exists e. auto.
Qed.
Lemma clean_opens w t : clean w -> t = [] \/ opens t -> ~ opens (w ++ t).
Proof.
  intros [N C] T (c & b & r & W & U & E). pose proof U as V. apply utf8_bytes in V as (x & y & -> & _ & F). destruct (inside (x :: y) w t r N (eq_sym E) F T) as (e & -> & _).
  apply (C [] ((x :: y) ++ e) eq_refl). exists c, (x :: y), e. auto.
Qed.
Lemma fields_clean n : forall w t cur, (length w <= n)%nat -> (forall a r, w = a ++ r -> ~ opens r) -> t = [] \/ opens t -> fields_from (w ++ t) cur = fields_from t (rev w ++ cur).
Proof.
  induction n as [| n IH]; intros w t cur L C T; [destruct w; [reflexivity | cbn in L; lia] |]. destruct w as [| x w]; [reflexivity |].
  assert (CL : clean (x :: w)) by (split; [discriminate | exact C]). destruct (fields_other ((x :: w) ++ t) cur ltac:(discriminate) (clean_opens _ _ CL T)) as (b & d & E & NB & -> & F).
  destruct (inside b (x :: w) t d ltac:(discriminate) (eq_sym E) F T) as (e & Ew & ->). rewrite Ew. rewrite IH; [rewrite rev_app_distr, <- app_assoc; reflexivity | | | exact T].
  - apply (f_equal (@length Z)) in Ew. rewrite app_length in Ew. destruct b; [contradiction |]. cbn [length] in *. lia.
  - intros a r Er. apply (C (b ++ a) r). rewrite Ew, Er. apply app_assoc.
Qed.
Lemma fields_sound s l : has_fields s l -> fields_from s [] = l.
Proof.
  induction 1 as [g G | g w t l G C H IH T]; [rewrite <- (app_nil_r g), fields_gap_from by exact G; reflexivity |].
  rewrite fields_gap_from by exact G. rewrite (fields_clean (length w)) by (auto; apply C). rewrite app_nil_r. destruct C as [N _].
  assert (FL : flush (rev w) = [w]). { unfold flush. destruct (rev w) eqn:R; [apply (f_equal (@rev Z)) in R; rewrite rev_involutive in R; contradiction |]. rewrite <- R, rev_involutive. reflexivity. }
  destruct T as [-> | O]; [rewrite fields_from_nil, FL; f_equal; exact IH |]. destruct O as (c & b & r & W & U & ->). rewrite (fields_white c b r (rev w) W U), FL. cbn [app]. f_equal. rewrite (fields_white c b r [] W U) in IH. exact IH.
Qed.
Lemma has_fields_gap c b t l : white c -> utf8 c b -> has_fields t l -> has_fields (b ++ t) l.
Proof.
  intros W U H. destruct H as [g G | g w t l G C H T]; [constructor; econstructor; eauto |]. rewrite app_assoc. constructor; auto. econstructor; eauto.
Qed.
Lemma fields_complete n : forall s cur, (length s <= n)%nat -> (cur = [] -> has_fields s (fields_from s [])) /\
  (cur <> [] -> (forall a r, rev cur = a ++ r -> r <> [] -> ~ opens (r ++ s)) -> has_fields (rev cur ++ s) (fields_from s cur)).
Proof.
  induction n as [| n IH]; intros s cur L.
  - destruct s; [| cbn in L; lia]. split; [intros _; constructor; constructor |]. intros N C. rewrite fields_from_nil. replace (flush cur) with [rev cur] by (destruct cur; [contradiction | reflexivity]).
    apply (hf_word [] (rev cur) [] []); [constructor | | constructor; constructor | auto]. split; [intros X; apply (f_equal (@rev Z)) in X; rewrite rev_involutive in X; contradiction |].
    intros a r E O. destruct r as [| x r]; [destruct O as (? & b & ? & _ & U & X); apply utf8_bytes in U as (? & ? & -> & _); discriminate |]. apply (C a (x :: r) E ltac:(discriminate)). rewrite app_nil_r. exact O.
  - destruct s as [| x s]; [apply (IH [] cur); cbn; lia |]. destruct (is_space (fst (decode_rune (x :: s)))) eqn:SP.
    + apply decode_opens in SP; [| discriminate]. pose proof SP as OP. destruct SP as (c & b & r & W & U & E). rewrite E in *. rewrite (fields_white c b r [] W U), (fields_white c b r cur W U).
      assert (LR : (length r <= n)%nat) by (apply (f_equal (@length Z)) in E; rewrite app_length in E; apply utf8_length in U; rewrite app_length in L; lia).
      assert (HR : has_fields (b ++ r) (fields_from r [])) by (apply (has_fields_gap c); auto; exact (proj1 (IH r [] LR) eq_refl)). split; [intros _; exact HR |].
      intros N C. replace (flush cur) with [rev cur] by (destruct cur; [contradiction | reflexivity]). apply (hf_word [] (rev cur) (b ++ r)); [constructor | | exact HR | auto].
      split; [intros X; apply (f_equal (@rev Z)) in X; rewrite rev_involutive in X; contradiction |].
      intros a q Eq O. destruct q as [| y q]; [destruct O as (? & b' & ? & _ & U' & X); apply utf8_bytes in U' as (? & ? & -> & _); discriminate |]. apply (C a (y :: q) Eq ltac:(discriminate)).
      destruct O as (c' & b' & r' & W' & U' & E'). exists c', b', (r' ++ b ++ r). rewrite E', <- app_assoc. auto.
    + assert (NO : ~ opens (x :: s)) by (intros O; apply decode_opens in O; [congruence | discriminate]).
      assert (ST : forall cur, (forall a r, rev cur = a ++ r -> r <> [] -> ~ opens (r ++ x :: s)) -> has_fields (rev cur ++ x :: s) (fields_from (x :: s) cur)).
      { intros cu C. destruct (fields_other (x :: s) cu ltac:(discriminate) NO) as (b & t & E & NB & -> & F). assert (LT : (length t <= n)%nat) by (apply (f_equal (@length Z)) in E; rewrite app_length in E; destruct b; [contradiction |]; cbn [length] in *; lia).
        replace (rev cu ++ x :: s) with (rev (rev b ++ cu) ++ t) by (rewrite rev_app_distr, rev_involutive, E, <- app_assoc; reflexivity). apply (IH t (rev b ++ cu) LT).
        - intros X. apply app_eq_nil in X as [X _]. apply (f_equal (@rev Z)) in X. rewrite rev_involutive in X. contradiction.
        - intros a r Er Nr. rewrite rev_app_distr, rev_involutive in Er. assert (SPL : (exists r', r = r' ++ b /\ rev cu = a ++ r') \/ exists a', b = a' ++ r /\ a' <> []).
          { clear - Er Nr NB. revert Er. generalize (rev cu) as q. induction a as [| y a IH]; intros q Er.
            - left. exists q. cbn [app] in Er. auto.
            - destruct q as [| z q]; [right; exists (y :: a); split; [exact Er | discriminate] |]. cbn [app] in Er. injection Er as -> Er. destruct (IH q Er) as [(r' & -> & ->) | R]; [left; exists r'; auto | right; exact R]. }
          destruct SPL as [(r' & -> & Ea) | (a' & Eb & Na)].
          + rewrite <- app_assoc, <- E. destruct r' as [| z r']; [exact NO |]. apply (C a (z :: r') Ea). discriminate.
          + intros O. destruct r as [| z r]; [contradiction |]. cbn [app] in O. apply opens_first in O. rewrite Eb in F. destruct a' as [| u a']; [contradiction |]. cbn [app tl] in F. apply Forall_app in F as [_ F]. inversion F; subst. lia. }
      split; [intros _; apply (ST []) | intros _ C; apply ST; exact C]. intros a r X Nr. symmetry in X. apply app_eq_nil in X as [_ X]. contradiction.
Qed.
Theorem fields_exact s l : fields s = l <-> has_fields s l.
Proof.
  split; [intros <-; exact (proj1 (fields_complete (length s) s [] (le_n _)) eq_refl) | apply fields_sound].
Qed.
