(** Decoding a document into the structs of the repository. *)
From Verif.Model Require Import Base Bech32 Node Json.
From Verif.Spec Require Import JsonSpec Utf8Spec.
From Verif.Proofs Require Import Util Bech32Facts NodeFacts JsonFacts JsonKeys.
Open Scope Z_scope.

(** ** The relations at the last member *)
Lemma field_nil b nm o n : field_from b nm o [] n <-> n = o.
Proof.
  split; [| intros ->; constructor]. intros H. remember (@nil (list Z * jvalue)) as m eqn:E. destruct H as [| m0 ? ? ? ? ? ? ? | m0 ? ? ? ? | m0 ? ? ? ? ?]; [reflexivity | destruct m0; discriminate ..].
Qed.
Lemma field_snoc b nm o m k v n : field_from b nm o (m ++ [(k, v)]) n <->
  (names nm k /\ ((fits b v n /\ exists n0, field_from b nm o m n0) \/ (v = JNull /\ field_from b nm o m n))) \/ (~ names nm k /\ field_from b nm o m n).
Proof.
  split.
  - intros H. remember (m ++ [(k, v)]) as s eqn:E. destruct H as [| m0 k0 v0 n0 n1 A B C | m0 k0 n0 A B | m0 k0 v0 n0 A B].
    + destruct m; discriminate.
    + apply app_inj_tail in E as [-> E]. injection E as -> ->. left. split; [exact B | left; split; [exact C | exists n1; exact A]].
    + apply app_inj_tail in E as [-> E]. injection E as -> <-. left. auto.
    + apply app_inj_tail in E as [-> E]. injection E as -> ->. right. auto.
  - intros [[A [[F [n0 B]] | [-> B]]] | [A B]]; [apply (f_set _ _ _ m k v n n0) | apply f_null | apply f_other]; assumption.
Qed.
Lemma field_app b nm o a x n : field_from b nm o (a ++ x) n <-> exists n0, field_from b nm o a n0 /\ field_from b nm n0 x n.
Proof.
  revert n. induction x as [|[k v] x IH] using rev_ind; intros n.
  - rewrite app_nil_r. split; [intros H; exists n; split; [exact H | constructor] | intros (n0 & A & B)]. apply field_nil in B. subst n0. exact A.
  - rewrite app_assoc, field_snoc. split.
    + intros [[A [[F [n1 B]] | [-> B]]] | [A B]]; apply IH in B as (n0 & B & C); exists n0; (split; [exact B |]); apply field_snoc; [left; split; [exact A | left; split; [exact F | exists n1; exact C]] | left; auto | right; auto].
    + intros (n0 & A & B). apply field_snoc in B. destruct B as [[N [[F [n1 B]] | [-> B]]] | [N B]]; [left; split; [exact N | left; split; [exact F | exists n1; apply IH; exists n0; auto]] | left; split; [exact N | right; split; [reflexivity | apply IH; exists n0; auto]] | right; split; [exact N | apply IH; exists n0; auto]].
Qed.
Lemma gathered_nil nm x : gathered nm [] x <-> x = [].
Proof.
  split; [| intros ->; constructor]. intros H. remember (@nil (list Z * jvalue)) as m eqn:E. destruct H as [| m0 ? ? ? ? ? | m0 ? ? ? ? | m0 ? ? ? ? ?]; [reflexivity | destruct m0; discriminate ..].
Qed.
Lemma gathered_snoc nm m k v x : gathered nm (m ++ [(k, v)]) x <->
  (names nm k /\ ((exists y z, v = JObj z /\ x = y ++ z /\ gathered nm m y) \/ (v = JNull /\ gathered nm m x))) \/ (~ names nm k /\ gathered nm m x).
Proof.
  split.
  - intros H. remember (m ++ [(k, v)]) as s eqn:E. destruct H as [| m0 k0 z y A B | m0 k0 y A B | m0 k0 v0 y A B].
    + destruct m; discriminate.
    + apply app_inj_tail in E as [-> E]. injection E as -> <-. left. split; [exact B | left; exists y, z; auto].
    + apply app_inj_tail in E as [-> E]. injection E as -> <-. left. auto.
    + apply app_inj_tail in E as [-> E]. injection E as -> ->. right. auto.
  - intros [[A [(y & z & -> & -> & B) | [-> B]]] | [A B]]; [apply g_obj | apply g_null | apply g_other]; assumption.
Qed.

(** ** One unsigned field *)
Lemma store_uint_ok bits old e v n : 0 <= bits <= 64 -> store_uint bits (old, e) v = (n, false) <-> e = false /\ (fits bits v n \/ (v = JNull /\ n = old)).
Proof.
  intros B. assert (P : 2 ^ bits <= 2 ^ 64) by (apply Z.pow_le_mono_r; lia).
  assert (NF : forall w, (forall t, w <> JNum t) -> w <> JNull -> (old, true) = (n, false) <-> e = false /\ (fits bits w n \/ (w = JNull /\ n = old))).
  { intros w A A'. split; [discriminate |]. intros [_ [(t & E & _) | [E _]]]; [destruct (A t E) | contradiction]. }
  destruct v as [| b | t | r | l | m]; cbn [store_uint fst snd]; try (apply NF; [intros t; discriminate | discriminate]).
  - split; [intros E; injection E as -> ->; auto |]. intros [-> [(t & E & _) | [_ ->]]]; [discriminate | reflexivity].
  - unfold parse_uint. destruct t as [|c t].
    { split; [discriminate |]. intros [_ [(t & E & (N & _) & _) | [E _]]]; [injection E as <-; contradiction | discriminate]. }
    set (s := c :: t) in *. assert (DV : digits_value s = uint_value s).
    { unfold digits_value, uint_value. generalize 0. generalize s. intros u. induction u as [|d u IH]; intros a; cbn [fold_left]; [reflexivity |]. rewrite IH. f_equal. lia. }
    assert (ND : forall x, fits bits (JNum s) x <-> forallb is_digit s = true /\ digits_value s = x /\ x < 2 ^ bits).
    { intros x. rewrite forallb_forall. unfold fits. split.
      - intros (t' & E & (_ & D) & V & L). injection E as <-. split; [intros y I; apply is_digit_spec; apply D; exact I |]. rewrite DV. auto.
      - intros (D & V & L). exists s. split; [reflexivity |]. split; [split; [discriminate | intros y I; apply is_digit_spec; apply D; exact I] |]. rewrite <- DV. auto. }
    rewrite (ND n). destruct (forallb is_digit s) eqn:FB; [| split; [discriminate | intros [_ [[X _] | [X _]]]; discriminate]].
    destruct (Z.ltb_spec (digits_value s) (2 ^ 64)) as [L | L].
    + destruct (Z.ltb_spec (digits_value s) (2 ^ bits)) as [L' | L'].
      * split; [intros E; injection E as <- <-; auto |]. intros [-> [(_ & -> & _) | [X _]]]; [reflexivity | discriminate].
      * split; [discriminate |]. intros [_ [(_ & <- & X) | [X _]]]; [lia | discriminate].
    + split; [discriminate |]. intros [_ [(_ & <- & X) | [X _]]]; [lia | discriminate].
Qed.

(** ** Names *)
Lemma names_distinct ns raw i j : NoDup (map (map fold_char) ns) -> (i < length ns)%nat -> (j < length ns)%nat -> names (nth i ns []) raw -> names (nth j ns []) raw -> i = j.
Proof.
  intros ND I J (l & S & Q) (l' & S' & Q'). rewrite (string_of_fun raw l' l S' S) in Q'. unfold same_name in Q, Q'. apply (proj1 (NoDup_nth _ (map fold_char [])) ND i j); rewrite ?map_length; [exact I | exact J |]. rewrite !map_nth, <- Q, <- Q'. reflexivity.
Qed.

(** ** A struct of unsigned fields *)
Definition flat_step (ns : list bytes) (ws : list Z) (st : list Z * bool) (kv : bytes * jvalue) : list Z * bool :=
  match find_field ns (unquote (fst kv)) with Some i => store_nth ws i st (snd kv) | None => st end.
Lemma nth_put (i j : nat) (l : list Z) x : (i < length l)%nat -> nth j (firstn i l ++ x :: skipn (S i) l) 0 = if (j =? i)%nat then x else nth j l 0.
Proof.
  revert i j. induction l as [|y l IH]; intros i j L; [cbn in L; lia |]. destruct i as [|i]; destruct j as [|j]; try reflexivity. cbn [firstn app nth skipn Nat.eqb]. apply IH. cbn in L. lia.
Qed.
Lemma length_put (i : nat) (l : list Z) x : (i < length l)%nat -> length (firstn i l ++ x :: skipn (S i) l) = length l.
Proof. intros L. rewrite app_length. cbn [length]. rewrite firstn_length, skipn_length. lia. Qed.
Lemma flat_length ns ws (m : list (bytes * jvalue)) st : Forall (Forall letter) ns -> length (fst st) = length ns -> Forall (fun kv : bytes * jvalue => chars (fst kv)) m -> length (fst (fold_left (flat_step ns ws) m st)) = length ns.
Proof.
  intros NL L CH. revert st L. induction CH as [|[k v] m CK _ IH]; intros st L; [exact L |]. cbn [fold_left]. apply IH. unfold flat_step. cbn [fst snd] in *. pose proof (find_names ns k NL CK) as FN. destruct (find_field ns (unquote k)) as [j|]; [| exact L].
  unfold store_nth. destruct (store_uint _ _ _) as [x e]. cbn [fst]. rewrite length_put by lia. exact L.
Qed.
Lemma flat_spec ns ws l0 e0 (m : list (bytes * jvalue)) l : Forall (Forall letter) ns -> NoDup (map (map fold_char) ns) -> Forall (fun w => 0 <= w <= 64) ws -> length ws = length ns -> length l0 = length ns -> Forall (fun kv : bytes * jvalue => chars (fst kv)) m ->
  decode_flat ns ws (l0, e0) (JObj m) = (l, false) <-> e0 = false /\ length l = length ns /\ forall i, (i < length ns)%nat -> field_from (nth i ws 0) (nth i ns []) (nth i l0 0) m (nth i l 0).
Proof.
  intros NL ND W LW L0 CH. cbn [decode_flat]. change (fold_left _ m (l0, e0)) with (fold_left (flat_step ns ws) m (l0, e0)).
  assert (EX : forall (a b : list Z), length a = length b -> (forall i, (i < length a)%nat -> nth i a 0 = nth i b 0) -> a = b) by (intros a b A B; apply (nth_ext a b 0 0 A B)).
  revert l CH. induction m as [|[k v] m IH] using rev_ind; intros l CH.
  - cbn [fold_left]. split.
    + intros E. injection E as <- ->. split; [reflexivity |]. split; [exact L0 |]. intros. constructor.
    + intros (-> & L & F). f_equal. apply EX; [lia |]. intros i I. specialize (F i ltac:(lia)). apply field_nil in F. auto.
  - apply Forall_app in CH as [CH CK]. inversion CK as [|? ? CK' _]; subst. cbn [fst] in CK'. clear CK. specialize (fun l => IH l CH). rewrite fold_left_app. cbn [fold_left]. pose proof (find_names ns k NL CK') as FN.
    destruct (fold_left (flat_step ns ws) m (l0, e0)) as [l1 e1] eqn:ES. unfold flat_step. cbn [fst snd]. destruct (find_field ns (unquote k)) as [j|].
    + destruct FN as [J NJ]. assert (WJ : 0 <= nth j ws 0 <= 64) by (apply (proj1 (Forall_forall _ _) W), nth_In; lia).
      assert (LL : length l1 = length ns) by (pose proof (flat_length ns ws m (l0, e0) NL L0 CH) as LL; rewrite ES in LL; exact LL).
      unfold store_nth. cbn [fst snd]. destruct (store_uint (nth j ws 0) (nth j l1 0, e1) v) as [x e] eqn:EU. split.
      * intros E. injection E as <- ->. apply store_uint_ok in EU as (-> & U); [| exact WJ]. specialize (proj1 (IH l1) eq_refl) as (E0 & _ & F). split; [exact E0 |]. split; [rewrite length_put by lia; exact LL |]. intros i I. rewrite nth_put by lia. apply field_snoc.
        destruct (Nat.eqb_spec i j) as [-> | NE].
        -- left. split; [exact NJ |]. destruct U as [U | [-> ->]]; [left; split; [exact U | exists (nth j l1 0); apply F; exact J] | right; split; [reflexivity | apply F; exact J]].
        -- right. split; [| apply F; exact I]. intros NI. apply NE. apply (names_distinct ns k); assumption.
      * intros (E0 & L & F). assert (exists n0, field_from (nth j ws 0) (nth j ns []) (nth j l0 0) m n0 /\ (fits (nth j ws 0) v (nth j l 0) \/ (v = JNull /\ nth j l 0 = n0))) as (n0 & FJ & U).
        { specialize (F j J). apply field_snoc in F. destruct F as [[_ [[U [n0 F]] | [-> F]]] | [N _]]; [exists n0; auto | exists (nth j l 0); auto | contradiction]. }
        assert (ID : (l1, e1) = (firstn j l ++ n0 :: skipn (S j) l, false)).
        { apply IH. split; [exact E0 |]. split; [rewrite length_put by lia; exact L |]. intros i I. rewrite nth_put by lia. destruct (Nat.eqb_spec i j) as [-> | NE]; [exact FJ |]. specialize (F i I). apply field_snoc in F. destruct F as [[N _] | [_ F]]; [| exact F]. destruct NE. apply (names_distinct ns k); assumption. }
        injection ID as -> ->. rewrite nth_put in EU by lia. rewrite Nat.eqb_refl in EU. rewrite (proj2 (store_uint_ok (nth j ws 0) n0 false v (nth j l 0) WJ)) in EU by auto. injection EU as <- <-. f_equal.
        apply EX; [rewrite !length_put; rewrite ?length_put; lia |]. intros i I. rewrite !nth_put; [| lia | rewrite length_put; lia]. destruct (Nat.eqb_spec i j) as [-> | NE]; reflexivity.
    + rewrite (IH l). split; intros (E0 & L & F); (split; [exact E0 |]; split; [exact L |]); intros i I.
      * apply field_snoc. right. split; [apply FN, nth_In; exact I | apply F; exact I].
      * specialize (F i I). apply field_snoc in F. destruct F as [[N _] | [_ F]]; [| exact F]. destruct (FN (nth i ns [])); [apply nth_In; exact I | exact N].
Qed.

(** ** Protocol *)
Lemma field_other b nm o m k v n : ~ names nm k -> field_from b nm o (m ++ [(k, v)]) n <-> field_from b nm o m n.
Proof. intros N. rewrite field_snoc. split; [intros [[X _] | [_ X]]; [contradiction | exact X] | auto]. Qed.
Lemma field_this b nm o m k v n : names nm k -> field_from b nm o (m ++ [(k, v)]) n <-> exists n0, field_from b nm o m n0 /\ (fits b v n \/ (v = JNull /\ n = n0)).
Proof.
  intros N. rewrite field_snoc. split.
  - intros [[_ [[F [n0 X]] | [-> X]]] | [X _]]; [exists n0; auto | exists n; auto | contradiction].
  - intros (n0 & X & [F | [-> ->]]); left; (split; [exact N |]); [left; split; [exact F | exists n0; exact X] | right; auto].
Qed.
Lemma gathered_other nm m k v x : ~ names nm k -> gathered nm (m ++ [(k, v)]) x <-> gathered nm m x.
Proof. intros N. rewrite gathered_snoc. split; [intros [[X _] | [_ X]]; [contradiction | exact X] | auto]. Qed.
Lemma gathered_this nm m k v x : names nm k -> gathered nm (m ++ [(k, v)]) x <-> exists y z, object_of v z /\ x = y ++ z /\ gathered nm m y.
Proof.
  intros N. rewrite gathered_snoc. unfold object_of. split.
  - intros [[_ [(y & z & -> & -> & G) | [-> G]]] | [X _]]; [exists y, z; auto | exists x, []; rewrite app_nil_r; auto | contradiction].
  - intros (y & z & [-> | [-> ->]] & -> & G); left; (split; [exact N |]); [left; exists y, z; auto | right; rewrite app_nil_r; auto].
Qed.
Definition keys_ok (m : list (bytes * jvalue)) : Prop := Forall (fun kv => chars (fst kv) /\ forall x, snd kv = JObj x -> Forall (fun kv : bytes * jvalue => chars (fst kv)) x) m.
Definition reads (m : list (bytes * jvalue)) (a b c d ma mi : Z) : Prop :=
  exists ver, gathered (str "protocolVersion") m ver /\ field 64 (str "txFeePerByte") m a /\ field 64 (str "txFeeFixed") m b /\ field 64 (str "maxTxSize") m c /\ field 64 (str "minUTxOValue") m d /\ field 8 (str "major") ver ma /\ field 8 (str "minor") ver mi.
Definition pstep (st : Protocol * bool) (kv : bytes * jvalue) : Protocol * bool :=
  match find_field protocol_names (unquote (fst kv)) with Some i => store_protocol i st (snd kv) | None => st end.
Ltac letters_tac := repeat (apply Forall_cons; [repeat (apply Forall_cons; [unfold letter; lia |]); apply Forall_nil |]); apply Forall_nil.
Lemma protocol_letters : Forall (Forall letter) protocol_names. Proof. unfold protocol_names. cbn. letters_tac. Qed.
Lemma version_letters : Forall (Forall letter) version_names. Proof. unfold version_names. cbn. letters_tac. Qed.
Lemma tip_letters : Forall (Forall letter) tip_names. Proof. unfold tip_names. cbn. letters_tac. Qed.
Ltac nodup_tac := vm_compute; repeat (apply NoDup_cons; [cbn; intuition discriminate |]); apply NoDup_nil.
Lemma protocol_nodup : NoDup (map (map fold_char) protocol_names). Proof. nodup_tac. Qed.
Lemma version_nodup : NoDup (map (map fold_char) version_names). Proof. nodup_tac. Qed.
Lemma tip_nodup : NoDup (map (map fold_char) tip_names). Proof. nodup_tac. Qed.

Lemma version_flat l0 e0 m l : Forall (fun kv : bytes * jvalue => chars (fst kv)) m -> length l0 = 2%nat ->
  decode_flat version_names [8; 8] (l0, e0) (JObj m) = (l, false) <-> e0 = false /\ length l = 2%nat /\ field_from 8 (str "major") (nth 0 l0 0) m (nth 0 l 0) /\ field_from 8 (str "minor") (nth 1 l0 0) m (nth 1 l 0).
Proof.
  intros CH L0. rewrite (flat_spec version_names [8; 8] l0 e0 m l version_letters version_nodup); [| repeat constructor; lia | reflexivity | exact L0 | exact CH]. split; intros (E & L & F); (split; [exact E |]; split; [exact L |]).
  - split; [apply (F 0%nat) | apply (F 1%nat)]; cbn; lia.
  - intros i I. cbn in I. destruct i as [|[|i]]; [apply F | apply F | lia].
Qed.
Lemma list2 (l : list Z) : length l = 2%nat -> l = [nth 0 l 0; nth 1 l 0].
Proof. destruct l as [|a [|b [|c l]]]; try discriminate. reflexivity. Qed.

Lemma protocol_spec m p : keys_ok m -> fold_left pstep m (zero_protocol, false) = (p, false) <-> reads m (p_fee_per_byte p) (p_fee_fixed p) (p_max_tx_size p) (p_min_utxo p) (p_major p) (p_minor p).
Proof.
  revert p. induction m as [|[k v] m IH] using rev_ind; intros p CH.
  - cbn [fold_left]. split.
    + intros E. injection E as <-. exists []. unfold field. repeat split; constructor.
    + intros (ver & G & A & B & C & D & MA & MI). apply gathered_nil in G. subst ver. unfold field in *. apply field_nil in A, B, C, D, MA, MI. destruct p as [a b c ma mi d]. cbn in *. subst. reflexivity.
  - apply Forall_app in CH as [CH CK]. inversion CK as [|? ? CK' _]; subst. cbn [fst snd] in CK'. clear CK. destruct CK' as [CK CN]. specialize (fun p => IH p CH). rewrite fold_left_app. cbn [fold_left].
    pose proof (find_names protocol_names k protocol_letters CK) as FN. destruct (fold_left pstep m (zero_protocol, false)) as [p1 e1] eqn:ES. unfold pstep. cbn [fst snd].
    assert (ND : forall i j, (i < 5)%nat -> (j < 5)%nat -> names (nth i protocol_names []) k -> i <> j -> ~ names (nth j protocol_names []) k).
    { intros i j I J NI NE NJ. apply NE. apply (names_distinct protocol_names k i j protocol_nodup I J NI NJ). }
    destruct (find_field protocol_names (unquote k)) as [j|].
    + destruct FN as [J NJ]. cbn [length protocol_names] in J. pose proof (ND j) as NO. destruct p as [a b c ma mi d]. cbn [p_fee_per_byte p_fee_fixed p_max_tx_size p_min_utxo p_major p_minor]. unfold reads, field.
      destruct j as [|[|[|[|[|j]]]]]; [| | | | | lia]; cbn [store_protocol].
      * pose proof (NO 1%nat ltac:(lia) ltac:(lia) NJ ltac:(lia)) as N1. pose proof (NO 2%nat ltac:(lia) ltac:(lia) NJ ltac:(lia)) as N2. pose proof (NO 3%nat ltac:(lia) ltac:(lia) NJ ltac:(lia)) as N3. pose proof (NO 4%nat ltac:(lia) ltac:(lia) NJ ltac:(lia)) as N4. cbn [nth protocol_names] in NJ, N1, N2, N3, N4.
        destruct (store_uint 64 (p_fee_per_byte p1, e1) v) as [x e] eqn:EU. split.
        -- intros E. injection E as <- <- <- <- <- <- ->. apply store_uint_ok in EU as (-> & U); [| lia]. destruct (proj1 (IH p1) eq_refl) as (ver & G & A & B & C & D & MA & MI). exists ver. repeat (split; [first [assumption | apply gathered_other; assumption | apply field_other; assumption | apply field_this; [exact NJ | exists (p_fee_per_byte p1); auto]] |]). exact MI.
        -- intros (ver & G & A & B & C & D & MA & MI). rewrite gathered_other in G by assumption. rewrite !field_other in B, C, D by assumption. apply field_this in A as (n0 & A & U); [| exact NJ].
           assert (ID : (p1, e1) = ({| p_fee_per_byte := n0; p_fee_fixed := b; p_max_tx_size := c; p_major := ma; p_minor := mi; p_min_utxo := d |}, false)) by (apply IH; exists ver; unfold field; cbn; auto 10).
           injection ID as -> ->. cbn [p_fee_per_byte p_fee_fixed p_max_tx_size p_min_utxo p_major p_minor] in *. rewrite (proj2 (store_uint_ok 64 n0 false v a ltac:(lia))) in EU by auto. injection EU as <- <-. reflexivity.
      * pose proof (NO 0%nat ltac:(lia) ltac:(lia) NJ ltac:(lia)) as N1. pose proof (NO 2%nat ltac:(lia) ltac:(lia) NJ ltac:(lia)) as N2. pose proof (NO 3%nat ltac:(lia) ltac:(lia) NJ ltac:(lia)) as N3. pose proof (NO 4%nat ltac:(lia) ltac:(lia) NJ ltac:(lia)) as N4. cbn [nth protocol_names] in NJ, N1, N2, N3, N4.
        destruct (store_uint 64 (p_fee_fixed p1, e1) v) as [x e] eqn:EU. split.
        -- intros E. injection E as <- <- <- <- <- <- ->. apply store_uint_ok in EU as (-> & U); [| lia]. destruct (proj1 (IH p1) eq_refl) as (ver & G & A & B & C & D & MA & MI). exists ver. repeat (split; [first [assumption | apply gathered_other; assumption | apply field_other; assumption | apply field_this; [exact NJ | exists (p_fee_fixed p1); auto]] |]). exact MI.
        -- intros (ver & G & A & B & C & D & MA & MI). rewrite gathered_other in G by assumption. rewrite !field_other in A, C, D by assumption. apply field_this in B as (n0 & B & U); [| exact NJ].
           assert (ID : (p1, e1) = ({| p_fee_per_byte := a; p_fee_fixed := n0; p_max_tx_size := c; p_major := ma; p_minor := mi; p_min_utxo := d |}, false)) by (apply IH; exists ver; unfold field; cbn; auto 10).
           injection ID as -> ->. cbn [p_fee_per_byte p_fee_fixed p_max_tx_size p_min_utxo p_major p_minor] in *. rewrite (proj2 (store_uint_ok 64 n0 false v b ltac:(lia))) in EU by auto. injection EU as <- <-. reflexivity.
      * pose proof (NO 0%nat ltac:(lia) ltac:(lia) NJ ltac:(lia)) as N1. pose proof (NO 1%nat ltac:(lia) ltac:(lia) NJ ltac:(lia)) as N2. pose proof (NO 3%nat ltac:(lia) ltac:(lia) NJ ltac:(lia)) as N3. pose proof (NO 4%nat ltac:(lia) ltac:(lia) NJ ltac:(lia)) as N4. cbn [nth protocol_names] in NJ, N1, N2, N3, N4.
        destruct (store_uint 64 (p_max_tx_size p1, e1) v) as [x e] eqn:EU. split.
        -- intros E. injection E as <- <- <- <- <- <- ->. apply store_uint_ok in EU as (-> & U); [| lia]. destruct (proj1 (IH p1) eq_refl) as (ver & G & A & B & C & D & MA & MI). exists ver. repeat (split; [first [assumption | apply gathered_other; assumption | apply field_other; assumption | apply field_this; [exact NJ | exists (p_max_tx_size p1); auto]] |]). exact MI.
        -- intros (ver & G & A & B & C & D & MA & MI). rewrite gathered_other in G by assumption. rewrite !field_other in A, B, D by assumption. apply field_this in C as (n0 & C & U); [| exact NJ].
           assert (ID : (p1, e1) = ({| p_fee_per_byte := a; p_fee_fixed := b; p_max_tx_size := n0; p_major := ma; p_minor := mi; p_min_utxo := d |}, false)) by (apply IH; exists ver; unfold field; cbn; auto 10).
           injection ID as -> ->. cbn [p_fee_per_byte p_fee_fixed p_max_tx_size p_min_utxo p_major p_minor] in *. rewrite (proj2 (store_uint_ok 64 n0 false v c ltac:(lia))) in EU by auto. injection EU as <- <-. reflexivity.
      * pose proof (NO 0%nat ltac:(lia) ltac:(lia) NJ ltac:(lia)) as N1. pose proof (NO 1%nat ltac:(lia) ltac:(lia) NJ ltac:(lia)) as N2. pose proof (NO 2%nat ltac:(lia) ltac:(lia) NJ ltac:(lia)) as N3. pose proof (NO 4%nat ltac:(lia) ltac:(lia) NJ ltac:(lia)) as N4. cbn [nth protocol_names] in NJ, N1, N2, N3, N4.
        destruct (decode_flat version_names [8; 8] ([p_major p1; p_minor p1], e1) v) as [l e] eqn:EU. split.
        -- intros E. injection E as <- <- <- <- <- <- ->.
           assert (Q : e1 = false /\ exists z, object_of v z /\ field_from 8 (str "major") (p_major p1) z (nth 0 l 0) /\ field_from 8 (str "minor") (p_minor p1) z (nth 1 l 0)).
           { destruct v as [| | | | | z]; try discriminate.
             - injection EU as <- ->. split; [reflexivity |]. exists []. split; [right; auto |]. split; constructor.
             - apply version_flat in EU as (-> & _ & X & Y); [| apply CN; reflexivity | reflexivity]. split; [reflexivity |]. exists z. split; [left; reflexivity |]. auto. }
           destruct Q as (-> & z & OB & X & Y). destruct (proj1 (IH p1) eq_refl) as (ver & G & A & B & C & D & MA & MI). exists (ver ++ z).
           split; [apply gathered_this; [exact NJ | exists ver, z; auto] |]. repeat (split; [apply field_other; assumption |]). split; apply field_app; [exists (p_major p1) | exists (p_minor p1)]; auto.
        -- intros (ver & G & A & B & C & D & MA & MI). rewrite !field_other in A, B, C, D by assumption. apply gathered_this in G as (y & z & OB & -> & G); [| exact NJ]. apply field_app in MA as (ma0 & MA & X), MI as (mi0 & MI & Y).
           assert (ID : (p1, e1) = ({| p_fee_per_byte := a; p_fee_fixed := b; p_max_tx_size := c; p_major := ma0; p_minor := mi0; p_min_utxo := d |}, false)) by (apply IH; exists y; unfold field; cbn; auto 10).
           injection ID as -> ->. cbn [p_fee_per_byte p_fee_fixed p_max_tx_size p_min_utxo p_major p_minor] in *. destruct OB as [-> | [-> ->]].
           ++ rewrite (proj2 (version_flat [ma0; mi0] false z [ma; mi] (CN z eq_refl) eq_refl)) in EU by auto. injection EU as <- <-. reflexivity.
           ++ apply field_nil in X, Y. subst. injection EU as <- <-. reflexivity.
      * pose proof (NO 0%nat ltac:(lia) ltac:(lia) NJ ltac:(lia)) as N1. pose proof (NO 1%nat ltac:(lia) ltac:(lia) NJ ltac:(lia)) as N2. pose proof (NO 2%nat ltac:(lia) ltac:(lia) NJ ltac:(lia)) as N3. pose proof (NO 3%nat ltac:(lia) ltac:(lia) NJ ltac:(lia)) as N4. cbn [nth protocol_names] in NJ, N1, N2, N3, N4.
        destruct (store_uint 64 (p_min_utxo p1, e1) v) as [x e] eqn:EU. split.
        -- intros E. injection E as <- <- <- <- <- <- ->. apply store_uint_ok in EU as (-> & U); [| lia]. destruct (proj1 (IH p1) eq_refl) as (ver & G & A & B & C & D & MA & MI). exists ver. repeat (split; [first [assumption | apply gathered_other; assumption | apply field_other; assumption | apply field_this; [exact NJ | exists (p_min_utxo p1); auto]] |]). exact MI.
        -- intros (ver & G & A & B & C & D & MA & MI). rewrite gathered_other in G by assumption. rewrite !field_other in A, B, C by assumption. apply field_this in D as (n0 & D & U); [| exact NJ].
           assert (ID : (p1, e1) = ({| p_fee_per_byte := a; p_fee_fixed := b; p_max_tx_size := c; p_major := ma; p_minor := mi; p_min_utxo := n0 |}, false)) by (apply IH; exists ver; unfold field; cbn; auto 10).
           injection ID as -> ->. cbn [p_fee_per_byte p_fee_fixed p_max_tx_size p_min_utxo p_major p_minor] in *. rewrite (proj2 (store_uint_ok 64 n0 false v d ltac:(lia))) in EU by auto. injection EU as <- <-. reflexivity.
    + pose proof (fun i (I : (i < 5)%nat) => FN (nth i protocol_names []) (nth_In protocol_names [] I)) as N. pose proof (N 0%nat ltac:(lia)) as N0. pose proof (N 1%nat ltac:(lia)) as N1. pose proof (N 2%nat ltac:(lia)) as N2. pose proof (N 3%nat ltac:(lia)) as N3. pose proof (N 4%nat ltac:(lia)) as N4. cbn [nth protocol_names] in N0, N1, N2, N3, N4. clear N.
      rewrite (IH p). unfold reads, field. split; intros (ver & X); exists ver; rewrite gathered_other, !field_other in *; assumption.
Qed.

(** ** Documents *)
Scheme value_i := Minimality for value Sort Prop with elements_i := Minimality for elements Sort Prop with members_i := Minimality for members Sort Prop.
Lemma members_keys m s : members m s -> Forall (fun kv : bytes * jvalue => chars (fst kv) /\ exists t, value (snd kv) t) m.
Proof. intros H. induction H; (apply Forall_cons; [split; [assumption | eexists; eassumption] |]); [apply Forall_nil | assumption]. Qed.
Lemma value_keys m s : value (JObj m) s -> keys_ok m.
Proof.
  assert (K : forall m s, value (JObj m) s -> Forall (fun kv : bytes * jvalue => chars (fst kv) /\ exists t, value (snd kv) t) m).
  { intros m0 s0 H. inversion H; subst; [apply Forall_nil | eapply members_keys; eassumption]. }
  intros H. apply K in H. unfold keys_ok. eapply Forall_impl; [| exact H]. intros [k v] [A [t B]]. cbn [fst snd] in *. split; [exact A |]. intros x ->. apply K in B. eapply Forall_impl; [| exact B]. intros kv [C _]. exact C.
Qed.
Theorem load_spec s p : loadProtocolFromBytes s = (p, false) <-> exists v, json_text v s /\ depth v <= 10000 /\ states_protocol v p.
Proof.
  unfold loadProtocolFromBytes. split.
  - destruct (json_parse s) as [v|] eqn:E; [| discriminate]. apply json_parse_spec in E as [T D]. intros H. exists v. split; [exact T |]. split; [exact D |]. unfold states_protocol. destruct v as [| | | | | m]; try discriminate.
    + injection H as <-. exists [], []. split; [right; auto |]. unfold field. repeat split; constructor.
    + destruct T as (w1 & t & w2 & _ & _ & V & _). cbn [decode_protocol] in H. apply protocol_spec in H as (ver & H); [| eapply value_keys; exact V]. exists m, ver. split; [left; reflexivity | exact H].
  - intros (v & T & D & m & ver & OB & R). rewrite (proj2 (json_parse_spec s v) (conj T D)). destruct T as (w1 & t & w2 & _ & _ & V & _). destruct OB as [-> | [-> ->]].
    + cbn [decode_protocol]. apply (protocol_spec m p); [eapply value_keys; exact V | exists ver; exact R].
    + cbn [decode_protocol]. apply (protocol_spec [] p); [constructor | exists ver; exact R].
Qed.
Theorem tip_spec s t : cli_tip (Some s) = (t, false) <-> exists v, json_text v s /\ depth v <= 10000 /\ states_tip v t.
Proof.
  unfold cli_tip. destruct t as [a b c]. assert (L3 : forall l : list Z, length l = 3%nat -> l = [nth 0 l 0; nth 1 l 0; nth 2 l 0]) by (intros [|x [|y [|z [|u l]]]]; try discriminate; reflexivity).
  assert (FL : forall m s, value (JObj m) s -> forall l, decode_flat tip_names [64; 64; 64] ([0; 0; 0], false) (JObj m) = (l, false) <-> length l = 3%nat /\ field 64 (str "slot") m (nth 0 l 0) /\ field 64 (str "epoch") m (nth 1 l 0) /\ field 64 (str "block") m (nth 2 l 0)).
  { intros m s0 V l. apply value_keys in V. rewrite (flat_spec tip_names [64; 64; 64] [0; 0; 0] false m l tip_letters tip_nodup); [| repeat constructor; lia | reflexivity | reflexivity | eapply Forall_impl; [| exact V]; intros kv [X _]; exact X]. split.
    - intros (_ & L & F). split; [exact L |]. split; [apply (F 0%nat); cbn; lia |]. split; [apply (F 1%nat); cbn; lia | apply (F 2%nat); cbn; lia].
    - intros (L & A & B & C). split; [reflexivity |]. split; [exact L |]. intros i I. cbn in I. destruct i as [|[|[|i]]]; [exact A | exact B | exact C | lia]. }
  split.
  - destruct (json_parse s) as [v|] eqn:E; [| discriminate]. apply json_parse_spec in E as [T D]. intros H. exists v. split; [exact T |]. split; [exact D |]. unfold states_tip. destruct v as [| | | | | m]; try discriminate.
    + injection H as <- <- <-. exists []. split; [right; auto |]. unfold field. repeat split; constructor.
    + destruct T as (w1 & t & w2 & _ & _ & V & _). destruct (decode_flat _ _ _ (JObj m)) as [l e] eqn:EF. injection H as <- <- <- ->. apply (FL m t V) in EF as (_ & F). exists m. split; [left; reflexivity | exact F].
  - intros (v & T & D & m & OB & F). rewrite (proj2 (json_parse_spec s v) (conj T D)). destruct T as (w1 & t & w2 & _ & _ & V & _). destruct OB as [-> | [-> ->]].
    + rewrite (proj2 (FL m t V [a; b; c])); [reflexivity | split; [reflexivity | exact F]].
    + destruct F as (A & B & C). unfold field in *. cbn in A, B, C. apply field_nil in A, B, C. subst. reflexivity.
Qed.
