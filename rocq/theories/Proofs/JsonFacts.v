(** The scanner accepts exactly the JSON grammar, and unquoting gives the string that is meant. *)
From Verif.Model Require Import Base Bech32 Node Json.
From Verif.Spec Require Import JsonSpec Utf8Spec.
From Verif.Proofs Require Import Util.
Open Scope Z_scope.

(** ** White space *)
Lemma js_space_spec c : js_space c = true <-> c = 32 \/ c = 9 \/ c = 10 \/ c = 13.
Proof. unfold js_space. rewrite !orb_true_iff, !Z.eqb_eq. tauto. Qed.
Lemma ws_cons c w : ws (c :: w) <-> js_space c = true /\ ws w.
Proof. unfold ws. rewrite js_space_spec. split; [intros H; split; [apply H; left; reflexivity | intros x I; apply H; right; exact I] | intros [A B] x [<- | I]; auto]. Qed.
Lemma ws_nil : ws []. Proof. intros c []. Qed.
Lemma skip_app w s : ws w -> skip_ws (w ++ s) = skip_ws s.
Proof. induction w as [|c w IH]; intros H; [reflexivity |]. apply ws_cons in H as [A B]. cbn [app skip_ws]. rewrite A. auto. Qed.
Lemma skip_split s : exists w, s = w ++ skip_ws s /\ ws w.
Proof.
  induction s as [|c s [w [E W]]]; [exists []; split; [reflexivity | exact ws_nil] |]. cbn [skip_ws]. destruct (js_space c) eqn:Ec; [| exists []; split; [reflexivity | exact ws_nil]].
  exists (c :: w). split; [cbn; congruence | apply ws_cons; auto].
Qed.
Lemma skip_stop c s : js_space c = false -> skip_ws (c :: s) = c :: s.
Proof. intros H. cbn. rewrite H. reflexivity. Qed.
Lemma ws_skip w : ws w -> skip_ws w = [].
Proof. intros H. rewrite <- (app_nil_r w), skip_app by exact H. reflexivity. Qed.

(** ** Numbers *)
Lemma is_digit_spec c : is_digit c = true <-> 48 <= c <= 57.
Proof. unfold is_digit. lia. Qed.
Definition all_digits (s : bytes) := forall c, In c s -> 48 <= c <= 57.
Lemma span_digits_sound s d t : span_digits s = (d, t) -> s = d ++ t /\ all_digits d /\ (forall c r, t = c :: r -> is_digit c = false).
Proof.
  revert d t. induction s as [|c s IH]; intros d t E; cbn in E; [injection E as <- <-; split; [reflexivity |]; split; [intros c [] | discriminate] |].
  destruct (is_digit c) eqn:Ec; [| injection E as <- <-; split; [reflexivity |]; split; [intros x [] | intros x r Q; injection Q as <- <-; exact Ec]].
  destruct (span_digits s) as [d' t']. injection E as <- <-. destruct (IH d' t' eq_refl) as (A & B & C). split; [cbn; congruence |]. split; [| exact C].
  intros x [<- | I]; [apply is_digit_spec; exact Ec | exact (B x I)].
Qed.
Definition no_digit (t : bytes) := forall c r, t = c :: r -> is_digit c = false.
Lemma span_digits_app d t : all_digits d -> no_digit t -> span_digits (d ++ t) = (d, t).
Proof.
  intros D N. induction d as [|c d IH]; cbn [app].
  - destruct t as [|c r]; [reflexivity |]. cbn. rewrite (N c r eq_refl). reflexivity.
  - cbn. rewrite (proj2 (is_digit_spec c) (D c (or_introl eq_refl))). rewrite IH; [reflexivity |]. intros x I. apply D. right. exact I.
Qed.
Lemma digits_split d : digits d -> exists c r, d = c :: r /\ 48 <= c <= 57 /\ all_digits r.
Proof. intros [N D]. destruct d as [|c r]; [contradiction |]. exists c, r. split; [reflexivity |]. split; [apply D; left; reflexivity | intros x I; apply D; right; exact I]. Qed.

(** The text after a number does not continue it. *)
Definition stop (t : bytes) := forall c r, t = c :: r -> is_digit c = false /\ c <> 46 /\ c <> 101 /\ c <> 69.
Lemma scan_exp_app e t : exp_part e -> stop t -> scan_exp (e ++ t) = Some (e, t).
Proof.
  intros [-> | (x & sg & d & -> & X & SG & D)] ST.
  - destruct t as [|c r]; [reflexivity |]. cbn. destruct (ST c r eq_refl) as (_ & _ & A & B). rewrite (proj2 (Z.eqb_neq _ _) A), (proj2 (Z.eqb_neq _ _) B). reflexivity.
  - assert (EX : (x =? 101) || (x =? 69) = true) by lia. cbn [app scan_exp]. rewrite EX. destruct (digits_split d D) as (c & r & -> & C & R).
    assert (SP : span_digits ((c :: r) ++ t) = (c :: r, t)) by (apply span_digits_app; [exact (proj2 D) | intros y z E; apply (ST y z E)]).
    destruct SG as [-> | [-> | ->]]; cbn [app] in *.
    + rewrite (proj2 (orb_false_iff _ _)) by lia. rewrite SP. reflexivity.
    + cbn [Z.eqb Pos.eqb orb]. rewrite SP. reflexivity.
    + cbn [Z.eqb Pos.eqb orb]. rewrite SP. reflexivity.
Qed.
Lemma exp_head e : exp_part e -> forall c r, e = c :: r -> c = 101 \/ c = 69.
Proof. intros [-> | (x & sg & d & -> & X & _)] c r E; [discriminate | injection E as <- _; exact X]. Qed.
Lemma stop_digit t : stop t -> no_digit t.
Proof. intros H c r E. apply (H c r E). Qed.
Lemma exp_tail e t : exp_part e -> stop t -> forall c r, e ++ t = c :: r -> is_digit c = false /\ c <> 46.
Proof.
  intros E ST c r Q. destruct e as [|x e]; [cbn in Q; destruct (ST c r Q) as (A & B & _); auto |]. cbn in Q. injection Q as <- _. pose proof (exp_head _ E x e eq_refl) as X. unfold is_digit. split; [lia | lia].
Qed.
Lemma scan_frac_app f e t : frac_part f -> exp_part e -> stop t -> scan_frac (f ++ e ++ t) = Some (f, e ++ t).
Proof.
  intros F E ST. pose proof (exp_tail e t E ST) as T. destruct F as [-> | (d & -> & D)].
  - cbn [app]. destruct (e ++ t) as [|c r] eqn:Q; [reflexivity |]. cbn. destruct (T c r eq_refl) as [_ A]. rewrite (proj2 (Z.eqb_neq _ _) A). reflexivity.
  - cbn [app scan_frac]. rewrite Z.eqb_refl. rewrite span_digits_app; [| exact (proj2 D) | intros c r Q; apply (T c r Q)]. destruct (digits_split d D) as (c & r & -> & _). reflexivity.
Qed.
Lemma frac_tail f e t : frac_part f -> exp_part e -> stop t -> no_digit (f ++ e ++ t).
Proof. intros F E ST c r Q. destruct F as [-> | (d & -> & D)]; [apply (exp_tail e t E ST c r Q) |]. cbn in Q. injection Q as <- _. reflexivity. Qed.
Lemma scan_int_app i t : int_part i -> no_digit t -> scan_int (i ++ t) = Some (i, t).
Proof.
  intros I N. destruct I as [-> | [D Z]]; [reflexivity |]. destruct (digits_split i D) as (c & r & -> & C & R). cbn [hd] in Z. cbn [app scan_int]. rewrite (proj2 (Z.eqb_neq _ _) Z), (proj2 (is_digit_spec c) C).
  change (c :: r ++ t) with ((c :: r) ++ t). rewrite span_digits_app; [reflexivity | exact (proj2 D) | exact N].
Qed.
Lemma int_head i : int_part i -> exists c r, i = c :: r /\ 48 <= c <= 57.
Proof. intros [-> | [D _]]; [exists 48, []; split; [reflexivity | lia] |]. destruct (digits_split i D) as (c & r & -> & C & _). exists c, r. auto. Qed.
Lemma scan_number_app n t : number n -> stop t -> scan_number (n ++ t) = Some (n, t).
Proof.
  intros (sg & i & f & e & -> & SG & I & F & E) ST. assert (M : scan_number ((sg ++ i ++ f ++ e) ++ t) = match scan_int (i ++ f ++ e ++ t) with None => None | Some (i, s2) => match scan_frac s2 with None => None | Some (f, s3) => match scan_exp s3 with None => None | Some (e, s4) => Some (sg ++ i ++ f ++ e, s4) end end end).
  { rewrite <- !app_assoc. destruct SG as [-> | ->]; [| reflexivity]. destruct (int_head i I) as (c & r & -> & C). unfold scan_number. cbn [app]. rewrite (proj2 (Z.eqb_neq c 45)) by lia. reflexivity. }
  rewrite M, scan_int_app, scan_frac_app, scan_exp_app by (try assumption; apply frac_tail; assumption). reflexivity.
Qed.
Lemma number_head n : number n -> exists c r, n = c :: r /\ (c = 45 \/ 48 <= c <= 57).
Proof. intros (sg & i & f & e & -> & SG & I & _). destruct (int_head i I) as (c & r & -> & C). destruct SG as [-> | ->]; [exists c, (r ++ f ++ e) | exists 45, ((c :: r) ++ f ++ e)]; split; auto. Qed.

Lemma scan_int_sound s i t : scan_int s = Some (i, t) -> s = i ++ t /\ int_part i.
Proof.
  unfold scan_int. destruct s as [|c r]; [discriminate |]. destruct (Z.eqb_spec c 48) as [-> | N]; [intros Q; injection Q as <- <-; split; [reflexivity | left; reflexivity] |].
  destruct (is_digit c) eqn:Ec; [| discriminate]. intros Q. assert (Q' : span_digits (c :: r) = (i, t)) by congruence. clear Q. rename Q' into Q. destruct (span_digits_sound _ _ _ Q) as (A & B & _). split; [exact A |]. right.
  cbn in Q. rewrite Ec in Q. destruct (span_digits r) as [d u]. injection Q as <- <-. split; [split; [discriminate | exact B] | exact N].
Qed.
Lemma scan_frac_sound s f t : scan_frac s = Some (f, t) -> s = f ++ t /\ frac_part f.
Proof.
  unfold scan_frac. destruct s as [|c r]; [intros Q; injection Q as <- <-; split; [reflexivity | left; reflexivity] |].
  destruct (Z.eqb_spec c 46) as [-> | N]; [| intros Q; injection Q as <- <-; split; [reflexivity | left; reflexivity]].
  destruct (span_digits r) as [d u] eqn:E. destruct (span_digits_sound _ _ _ E) as (-> & B & _). destruct d as [|x d]; [discriminate |]. intros Q. injection Q as <- <-. split; [reflexivity |]. right. exists (x :: d). split; [reflexivity |]. split; [discriminate | exact B].
Qed.
Lemma scan_exp_sound s e t : scan_exp s = Some (e, t) -> s = e ++ t /\ exp_part e.
Proof.
  unfold scan_exp. destruct s as [|c r]; [intros Q; injection Q as <- <-; split; [reflexivity | left; reflexivity] |].
  destruct ((c =? 101) || (c =? 69)) eqn:Ec; [| intros Q; injection Q as <- <-; split; [reflexivity | left; reflexivity]]. assert (C : c = 101 \/ c = 69) by lia.
  assert (G : forall sg r1, (sg = [] \/ sg = [43] \/ sg = [45]) -> r = sg ++ r1 -> match span_digits r1 with ([], _) => None | (d, t) => Some (c :: sg ++ d, t) end = Some (e, t) -> c :: r = e ++ t /\ exp_part e).
  { intros sg r1 SG -> Q. destruct (span_digits r1) as [d u] eqn:E. destruct (span_digits_sound _ _ _ E) as (-> & B & _). destruct d as [|x d]; [discriminate |]. injection Q as <- <-. split; [cbn; rewrite <- !app_assoc; reflexivity |]. right. exists c, sg, (x :: d). split; [reflexivity |]. split; [exact C |]. split; [exact SG |]. split; [discriminate | exact B]. }
  destruct r as [|x r]; [apply (G [] []); auto |]. destruct ((x =? 43) || (x =? 45)) eqn:Ex; [apply (G [x] r); [| reflexivity]; assert (x = 43 \/ x = 45) as [-> | ->] by lia; auto | apply (G [] (x :: r)); auto].
Qed.
Lemma scan_number_sound s n t : scan_number s = Some (n, t) -> s = n ++ t /\ number n.
Proof.
  unfold scan_number. intros Q.
  assert (G : forall sg s1, (sg = [] \/ sg = [45]) -> s = sg ++ s1 -> match scan_int s1 with None => None | Some (i, s2) => match scan_frac s2 with None => None | Some (f, s3) => match scan_exp s3 with None => None | Some (e, s4) => Some (sg ++ i ++ f ++ e, s4) end end end = Some (n, t) -> s = n ++ t /\ number n).
  { clear Q. intros sg s1 SG -> Q. destruct (scan_int s1) as [[i s2] |] eqn:E1; [| discriminate]. destruct (scan_frac s2) as [[f s3] |] eqn:E2; [| discriminate]. destruct (scan_exp s3) as [[e s4] |] eqn:E3; [| discriminate]. injection Q as <- <-.
    apply scan_int_sound in E1 as [-> I]. apply scan_frac_sound in E2 as [-> F]. apply scan_exp_sound in E3 as [-> E]. split; [rewrite <- !app_assoc; reflexivity |]. exists sg, i, f, e. auto. }
  destruct s as [|c r]; [apply (G [] []); auto |]. destruct (Z.eqb_spec c 45) as [-> | N]; [apply (G [45] r); auto | apply (G [] (c :: r)); auto].
Qed.

(** ** Strings *)
Lemma is_hex_spec c : is_hex c = true <-> hex c.
Proof. unfold is_hex, is_digit, hex. lia. Qed.
Lemma is_escape_spec e : is_escape e = true <-> exists x, In (e, x) escapes.
Proof.
  unfold is_escape, escapes. split.
  - intros H. rewrite !orb_true_iff, !Z.eqb_eq in H. repeat match goal with H : _ \/ _ |- _ => destruct H end; subst e; eexists; cbn; eauto 20.
  - intros [x H]. cbn in H. repeat match goal with H : _ \/ _ |- _ => destruct H as [H|H]; [injection H as <- <-; reflexivity |] end. contradiction.
Qed.
Lemma scan_string_app x t : chars x -> scan_string (x ++ 34 :: t) = Some (x, t).
Proof.
  intros H. induction H as [| c r A B C _ IH | e y r I _ IH | h1 h2 h3 h4 r A B C D _ IH]; cbn [app].
  - reflexivity.
  - cbn [scan_string]. rewrite (proj2 (Z.eqb_neq _ _) B), (proj2 (Z.eqb_neq _ _) C), (proj2 (Z.ltb_ge _ _) A), IH. reflexivity.
  - cbn [scan_string]. cbn [Z.eqb Pos.eqb]. rewrite (proj2 (is_escape_spec e) (ex_intro _ y I)), IH. reflexivity.
  - cbn [scan_string]. cbn [Z.eqb Pos.eqb is_escape orb]. rewrite (proj2 (is_hex_spec h1) A), (proj2 (is_hex_spec h2) B), (proj2 (is_hex_spec h3) C), (proj2 (is_hex_spec h4) D). cbn [andb]. rewrite IH. reflexivity.
Qed.
Lemma scan_string_sound_n n : forall s x t, (length s <= n)%nat -> scan_string s = Some (x, t) -> s = x ++ 34 :: t /\ chars x.
Proof.
  induction n as [|n IH]; intros s x t L E; [destruct s; [discriminate E | cbn in L; lia] |].
  destruct s as [|c r]; [discriminate |]. cbn [scan_string] in E. cbn [length] in L.
  destruct (Z.eqb_spec c 34) as [-> | N1]; [injection E as <- <-; split; [reflexivity | constructor] |].
  destruct (Z.eqb_spec c 92) as [-> | N2].
  - destruct r as [|e r]; [discriminate |]. cbn [length] in L. destruct (is_escape e) eqn:Ee.
    + destruct (scan_string r) as [[y u] |] eqn:E1; [| discriminate]. injection E as <- <-. apply IH in E1 as [-> C]; [| lia]. apply is_escape_spec in Ee as [z I]. split; [reflexivity | econstructor; eassumption].
    + destruct (Z.eqb_spec e 117) as [-> |]; [| discriminate]. destruct r as [|h1 [|h2 [|h3 [|h4 r]]]]; try discriminate. cbn [length] in L.
      destruct (is_hex h1 && is_hex h2 && is_hex h3 && is_hex h4) eqn:EH; [| discriminate]. apply andb_true_iff in EH as [EH H4]. apply andb_true_iff in EH as [EH H3]. apply andb_true_iff in EH as [H1 H2]. apply is_hex_spec in H1, H2, H3, H4.
      destruct (scan_string r) as [[y u] |] eqn:E1; [| discriminate]. injection E as <- <-. apply IH in E1 as [-> C]; [| lia]. split; [reflexivity | constructor; assumption].
  - destruct (Z.ltb_spec c 32); [discriminate |]. destruct (scan_string r) as [[y u] |] eqn:E1; [| discriminate]. injection E as <- <-. apply IH in E1 as [-> C]; [| lia]. split; [reflexivity | constructor; assumption].
Qed.
Lemma scan_string_sound s x t : scan_string s = Some (x, t) -> s = x ++ 34 :: t /\ chars x.
Proof. apply (scan_string_sound_n (length s)). lia. Qed.

(** ** Values *)
Lemma strip_app p t : strip p (p ++ t) = Some t.
Proof. induction p as [|a p IH]; [destruct t; reflexivity |]. cbn. rewrite Z.eqb_refl. exact IH. Qed.
Lemma strip_sound p s t : strip p s = Some t -> s = p ++ t.
Proof.
  revert s. induction p as [|a p IH]; intros s E; [destruct s; injection E as <-; reflexivity |]. destruct s as [|b s]; [discriminate |]. cbn in E. destruct (Z.eqb_spec a b) as [-> |]; [| discriminate]. apply IH in E. cbn. congruence.
Qed.
Scheme value_mut := Induction for value Sort Prop with elements_mut := Induction for elements Sort Prop with members_mut := Induction for members Sort Prop.
Combined Scheme value_elements_members from value_mut, elements_mut, members_mut.

Definition starts (s : bytes) := exists c r, s = c :: r /\ js_space c = false /\ c <> 93 /\ c <> 125.
Lemma value_head v s : value v s -> starts s.
Proof.
  intros H. destruct H; try (eexists; eexists; split; [reflexivity | repeat split; discriminate]).
  destruct (number_head t H) as (c & r & -> & C). exists c, r. split; [reflexivity |]. unfold js_space. lia.
Qed.
Lemma stop_ws w t : ws w -> stop t -> stop (w ++ t).
Proof.
  intros W ST c r E. destruct w as [|x w]; [exact (ST c r E) |]. cbn in E. injection E as -> _. destruct (W c (or_introl eq_refl)) as [-> | [-> | [-> | ->]]]; repeat split; discriminate.
Qed.
Lemma stop_char c t : is_digit c = false -> c <> 46 -> c <> 101 -> c <> 69 -> stop (c :: t).
Proof. intros A B C D x r E. injection E as <- _. auto. Qed.
Lemma stop_nil : stop []. Proof. intros c r E. discriminate. Qed.
Lemma fold_max_le l d : 0 <= d -> fold_right Z.max 0 l <= d <-> forall x, In x l -> x <= d.
Proof. intros D. induction l as [|a l IH]; cbn [fold_right In]; [split; [intros _ x [] | lia] |]. rewrite Z.max_lub_iff, IH. split; [intros [A B] x [<- | I]; auto | intros H; auto]. Qed.
Lemma fold_max_nonneg l : 0 <= fold_right Z.max 0 l.
Proof. induction l as [|a l IH]; cbn [fold_right]; lia. Qed.
Lemma depth_nonneg v : 0 <= depth v.
Proof. destruct v; cbn [depth]; try lia; match goal with |- context [fold_right Z.max 0 ?l] => pose proof (fold_max_nonneg l) end; lia. Qed.

Definition V v s (_ : value v s) := forall f d r, (length s <= f)%nat -> depth v <= d -> stop r -> parse_value f d (s ++ r) = Some (v, r).
Definition El l s (_ : elements l s) := (exists w t, s = w ++ t /\ ws w /\ starts t) /\ forall f d r, (length s + 1 <= f)%nat -> 0 <= d -> (forall v, In v l -> depth v <= d) -> parse_elements f d (skip_ws (s ++ 93 :: r)) = Some (l, r).
Definition Me m s (_ : members m s) := (exists w t, s = w ++ t /\ ws w /\ starts t) /\ forall f d r, (length s + 1 <= f)%nat -> 0 <= d -> (forall kv, In kv m -> depth (snd kv) <= d) -> parse_members f d (skip_ws (s ++ 125 :: r)) = Some (m, r).
Lemma parse_complete : (forall v s H, V v s H) /\ (forall l s H, El l s H) /\ (forall m s H, Me m s H).
Proof.
  apply value_elements_members; unfold V, El, Me.
  - intros f d r L D S. destruct f as [|f]; [cbn in L; lia |]. reflexivity.
  - intros f d r L D S. destruct f as [|f]; [cbn in L; lia |]. reflexivity.
  - intros f d r L D S. destruct f as [|f]; [cbn in L; lia |]. reflexivity.
  - intros t N f d r L D S. destruct (number_head t N) as (c & u & -> & C). destruct f as [|f]; [cbn in L; lia |]. pose proof (scan_number_app _ r N S) as E. cbn [app] in *. cbn [parse_value].
    rewrite !(proj2 (Z.eqb_neq c _)) by lia. rewrite E. reflexivity.
  - intros x C f d r L D S. destruct f as [|f]; [cbn in L; lia |]. cbn [app parse_value Z.eqb Pos.eqb]. rewrite <- app_assoc. cbn [app]. rewrite (scan_string_app x r C). reflexivity.
  - intros w W f d r L D S. destruct f as [|f]; [cbn in L; lia |]. cbn [app parse_value Z.eqb Pos.eqb]. cbn [depth map fold_right] in D. rewrite (proj2 (Z.leb_gt _ _)) by lia. rewrite <- app_assoc, skip_app by exact W. reflexivity.
  - intros l s H [(w & t & -> & W & c & u & -> & C1 & C2 & C3) IH] f d r L D S. destruct f as [|f]; [cbn in L; lia |]. cbn [app parse_value Z.eqb Pos.eqb]. cbn [depth map fold_right] in D. pose proof (fold_max_le (map depth l)) as FM.
    pose proof (fold_max_nonneg (map depth l)).
    rewrite (proj2 (Z.leb_gt _ _)) by lia. assert (LL : (length (w ++ c :: u) + 1 <= f)%nat) by (cbn [length] in L; rewrite app_length in L; cbn [length] in L; lia). specialize (IH f (d - 1) r LL). clear L LL. rewrite <- !app_assoc in *. cbn [app] in *. rewrite <- ?app_assoc in *. cbn [app] in *. rewrite skip_app in * by exact W. rewrite (skip_stop c) in * by exact C1. rewrite (proj2 (Z.eqb_neq _ _) C2).
    rewrite IH; [reflexivity | lia |]. intros v I. apply (proj1 (FM (d - 1) ltac:(lia))); [lia | apply in_map; exact I].
  - intros w W f d r L D S. destruct f as [|f]; [cbn in L; lia |]. cbn [app parse_value Z.eqb Pos.eqb]. cbn [depth map fold_right] in D. rewrite (proj2 (Z.leb_gt _ _)) by lia. rewrite <- app_assoc, skip_app by exact W. reflexivity.
  - intros l s H [(w & t & -> & W & c & u & -> & C1 & C2 & C3) IH] f d r L D S. destruct f as [|f]; [cbn in L; lia |]. cbn [app parse_value Z.eqb Pos.eqb]. change (1 + fold_right Z.max 0 (map (fun kv => depth (snd kv)) l) <= d) in D. pose proof (fold_max_le (map (fun kv => depth (snd kv)) l)) as FM.
    pose proof (fold_max_nonneg (map (fun kv => depth (snd kv)) l)).
    rewrite (proj2 (Z.leb_gt _ _)) by lia. assert (LL : (length (w ++ c :: u) + 1 <= f)%nat) by (cbn [length] in L; rewrite app_length in L; cbn [length] in L; lia). specialize (IH f (d - 1) r LL). clear L LL. rewrite <- !app_assoc in *. cbn [app] in *. rewrite <- ?app_assoc in *. cbn [app] in *. rewrite skip_app in * by exact W. rewrite (skip_stop c) in * by exact C1. rewrite (proj2 (Z.eqb_neq _ _) C3).
    rewrite IH; [reflexivity | lia |]. intros v I. apply (proj1 (FM (d - 1) ltac:(lia))); [lia | exact (in_map (fun kv => depth (snd kv)) l v I)].
  - intros v w1 s w2 W1 H IH W2. split; [exists w1, (s ++ w2); split; [reflexivity |]; split; [exact W1 |]; destruct (value_head v s H) as (c & u & -> & X); exists c, (u ++ w2); split; [reflexivity | exact X] |].
    intros f d r L D Dv. rewrite !app_length in L. destruct f as [|f]; [lia |]. rewrite <- !app_assoc, skip_app by exact W1. destruct (value_head v s H) as (c & u & Es & X & _). subst s. cbn [app]. rewrite (skip_stop c) by exact X. change (c :: u ++ w2 ++ 93 :: r) with ((c :: u) ++ w2 ++ 93 :: r).
    cbn [parse_elements]. rewrite IH; [| lia | apply Dv; left; reflexivity | apply stop_ws; [exact W2 | apply stop_char; try discriminate; reflexivity]]. rewrite skip_app by exact W2. reflexivity.
  - intros v w1 s w2 l t W1 H IH W2 HE [_ IHE]. split; [exists w1, (s ++ w2 ++ 44 :: t); split; [reflexivity |]; split; [exact W1 |]; destruct (value_head v s H) as (c & u & -> & X); exists c, (u ++ w2 ++ 44 :: t); split; [reflexivity | exact X] |].
    intros f d r L D Dv. rewrite !app_length in L. cbn [length] in L. destruct f as [|f]; [lia |]. rewrite <- !app_assoc, skip_app by exact W1. destruct (value_head v s H) as (c & u & Es & X & _). subst s. cbn [app]. rewrite (skip_stop c) by exact X. change (c :: u ++ w2 ++ 44 :: t ++ 93 :: r) with ((c :: u) ++ w2 ++ 44 :: t ++ 93 :: r).
    cbn [parse_elements]. rewrite IH; [| lia | apply Dv; left; reflexivity | apply stop_ws; [exact W2 | apply stop_char; try discriminate; reflexivity]]. rewrite skip_app by exact W2. cbn [skip_ws js_space Z.eqb Pos.eqb orb]. rewrite IHE; [reflexivity | cbn [length] in L; lia | exact D | intros x I; apply Dv; right; exact I].
  - intros k v w1 w2 w3 s w4 W1 K W2 W3 H IH W4. split; [exists w1, (34 :: k ++ 34 :: w2 ++ 58 :: w3 ++ s ++ w4); split; [reflexivity |]; split; [exact W1 |]; eexists; eexists; split; [reflexivity | repeat split; discriminate] |].
    intros f d r L D Dv. rewrite !app_length in L. cbn [length] in L. rewrite !app_length in L. cbn [length] in L. rewrite !app_length in L. cbn [length] in L. rewrite !app_length in L. destruct f as [|f]; [lia |].
    rewrite <- !app_assoc, skip_app by exact W1. cbn [app]. rewrite (skip_stop 34) by reflexivity. cbn [parse_members Z.eqb Pos.eqb]. rewrite <- !app_assoc. cbn [app]. rewrite scan_string_app by exact K. rewrite <- app_assoc. rewrite skip_app by exact W2. cbn [app]. rewrite (skip_stop 58) by reflexivity. cbn [Z.eqb Pos.eqb].
    rewrite <- !app_assoc, skip_app by exact W3. destruct (value_head v s H) as (c & u & Es & X & _). subst s. cbn [app]. rewrite (skip_stop c) by exact X. change (c :: u ++ w4 ++ 125 :: r) with ((c :: u) ++ w4 ++ 125 :: r).
    rewrite IH; [| cbn [length] in *; lia | apply (Dv (k, v)); left; reflexivity | apply stop_ws; [exact W4 | apply stop_char; try discriminate; reflexivity]]. rewrite skip_app by exact W4. reflexivity.
  - intros k v w1 w2 w3 s w4 m t W1 K W2 W3 H IH W4 HM [_ IHM]. split; [exists w1, (34 :: k ++ 34 :: w2 ++ 58 :: w3 ++ s ++ w4 ++ 44 :: t); split; [reflexivity |]; split; [exact W1 |]; eexists; eexists; split; [reflexivity | repeat split; discriminate] |].
    intros f d r L D Dv. repeat (rewrite !app_length in L; cbn [length] in L). destruct f as [|f]; [lia |].
    rewrite <- !app_assoc, skip_app by exact W1. cbn [app]. rewrite (skip_stop 34) by reflexivity. cbn [parse_members Z.eqb Pos.eqb]. rewrite <- !app_assoc. cbn [app]. rewrite scan_string_app by exact K. rewrite <- app_assoc. rewrite skip_app by exact W2. cbn [app]. rewrite (skip_stop 58) by reflexivity. cbn [Z.eqb Pos.eqb].
    rewrite <- !app_assoc, skip_app by exact W3. destruct (value_head v s H) as (c & u & Es & X & _). subst s. cbn [app]. rewrite (skip_stop c) by exact X. rewrite <- ?app_assoc. cbn [app]. change (c :: u ++ w4 ++ 44 :: t ++ 125 :: r) with ((c :: u) ++ w4 ++ 44 :: t ++ 125 :: r).
    rewrite IH; [| cbn [length] in *; lia | apply (Dv (k, v)); left; reflexivity | apply stop_ws; [exact W4 | apply stop_char; try discriminate; reflexivity]]. rewrite skip_app by exact W4. cbn [skip_ws js_space Z.eqb Pos.eqb orb]. rewrite IHM; [reflexivity | cbn [length] in L; lia | exact D | intros x I; apply Dv; right; exact I].
Qed.

Lemma skip_head s c r : skip_ws s = c :: r -> exists w, s = w ++ c :: r /\ ws w.
Proof. intros E. destruct (skip_split s) as (w & A & B). rewrite E in A. exists w. auto. Qed.
Lemma skip_all s : skip_ws s = [] -> ws s.
Proof. intros E. destruct (skip_split s) as (w & A & B). rewrite E, app_nil_r in A. subst. exact B. Qed.
Definition Vs f := forall d s v r, 0 <= d -> parse_value f d s = Some (v, r) -> exists t, s = t ++ r /\ value v t /\ depth v <= d.
Definition Es f := forall d s l r, 0 <= d -> parse_elements f d (skip_ws s) = Some (l, r) -> exists t, s = t ++ 93 :: r /\ elements l t /\ forall v, In v l -> depth v <= d.
Definition Ms f := forall d s m r, 0 <= d -> parse_members f d (skip_ws s) = Some (m, r) -> exists t, s = t ++ 125 :: r /\ members m t /\ forall kv, In kv m -> depth (snd kv) <= d.
Lemma parse_sound f : Vs f /\ Es f /\ Ms f.
Proof.
  induction f as [|f (IV & IE & IM)]; [repeat split; intros; discriminate |]. split; [| split].
  - intros d s v r D E. cbn [parse_value] in E. destruct s as [|c s]; [discriminate |].
    destruct (Z.eqb_spec c 123) as [-> | N1].
    { destruct (Z.leb_spec d 0); [discriminate |]. destruct (skip_ws s) as [|c1 r1] eqn:Es; [discriminate |]. destruct (Z.eqb_spec c1 125) as [-> | N].
      - injection E as <- <-. destruct (skip_head _ _ _ Es) as (w & -> & W). exists (123 :: w ++ [125]). split; [cbn; rewrite <- app_assoc; reflexivity |]. split; [constructor; exact W | cbn; lia].
      - destruct (parse_members f (d - 1) (c1 :: r1)) as [[m t] |] eqn:EM; [| discriminate]. injection E as <- <-. rewrite <- Es in EM. destruct (IM (d - 1) _ _ _ ltac:(lia) EM) as (u & -> & HM & DM).
        exists (123 :: u ++ [125]). split; [cbn; rewrite <- app_assoc; reflexivity |]. split; [apply v_obj; exact HM |]. change (1 + fold_right Z.max 0 (map (fun kv => depth (snd kv)) m) <= d).
        assert (fold_right Z.max 0 (map (fun kv => depth (snd kv)) m) <= d - 1); [| lia]. apply fold_max_le; [lia |]. intros x I. apply in_map_iff in I as (kv & <- & I). auto. }
    destruct (Z.eqb_spec c 91) as [-> | N2].
    { destruct (Z.leb_spec d 0); [discriminate |]. destruct (skip_ws s) as [|c1 r1] eqn:Es; [discriminate |]. destruct (Z.eqb_spec c1 93) as [-> | N].
      - injection E as <- <-. destruct (skip_head _ _ _ Es) as (w & -> & W). exists (91 :: w ++ [93]). split; [cbn; rewrite <- app_assoc; reflexivity |]. split; [constructor; exact W | cbn; lia].
      - destruct (parse_elements f (d - 1) (c1 :: r1)) as [[m t] |] eqn:EM; [| discriminate]. injection E as <- <-. rewrite <- Es in EM. destruct (IE (d - 1) _ _ _ ltac:(lia) EM) as (u & -> & HM & DM).
        exists (91 :: u ++ [93]). split; [cbn; rewrite <- app_assoc; reflexivity |]. split; [apply v_arr; exact HM |]. change (1 + fold_right Z.max 0 (map depth m) <= d).
        assert (fold_right Z.max 0 (map depth m) <= d - 1); [| lia]. apply fold_max_le; [lia |]. intros x I. apply in_map_iff in I as (kv & <- & I). auto. }
    destruct (Z.eqb_spec c 34) as [-> | N3].
    { destruct (scan_string s) as [[x t] |] eqn:EX; [| discriminate]. injection E as <- <-. apply scan_string_sound in EX as [-> C]. exists (34 :: x ++ [34]). split; [cbn; rewrite <- app_assoc; reflexivity |]. split; [constructor; exact C | exact D]. }
    destruct (Z.eqb_spec c 116) as [-> | N4].
    { destruct (strip (str "true") (116 :: s)) as [t |] eqn:EX; [| discriminate]. injection E as <- <-. apply strip_sound in EX. exists (str "true"). split; [exact EX |]. split; [constructor | exact D]. }
    destruct (Z.eqb_spec c 102) as [-> | N5].
    { destruct (strip (str "false") (102 :: s)) as [t |] eqn:EX; [| discriminate]. injection E as <- <-. apply strip_sound in EX. exists (str "false"). split; [exact EX |]. split; [constructor | exact D]. }
    destruct (Z.eqb_spec c 110) as [-> | N6].
    { destruct (strip (str "null") (110 :: s)) as [t |] eqn:EX; [| discriminate]. injection E as <- <-. apply strip_sound in EX. exists (str "null"). split; [exact EX |]. split; [constructor | exact D]. }
    destruct (scan_number (c :: s)) as [[n t] |] eqn:EX; [| discriminate]. injection E as <- <-. apply scan_number_sound in EX as [EX N]. exists n. split; [exact EX |]. split; [constructor; exact N | exact D].
  - intros d s l r D E. cbn [parse_elements] in E. destruct (parse_value f d (skip_ws s)) as [[v r1] |] eqn:EV; [| discriminate]. destruct (IV _ _ _ _ D EV) as (t & Et & HV & DV). destruct (skip_split s) as (w1 & Es & W1). rewrite Et in Es.
    destruct (skip_ws r1) as [|c r2] eqn:Er; [discriminate |]. destruct (skip_head _ _ _ Er) as (w2 & -> & W2). destruct (Z.eqb_spec c 44) as [-> | N].
    + destruct (parse_elements f d (skip_ws r2)) as [[l' t'] |] eqn:EE; [| discriminate]. injection E as <- <-. destruct (IE _ _ _ _ D EE) as (u & -> & HE & DE). exists (w1 ++ t ++ w2 ++ 44 :: u). split; [rewrite Es; repeat (rewrite <- !app_assoc; cbn [app]); reflexivity |]. split; [constructor; assumption |]. intros x [<- | I]; auto.
    + destruct (Z.eqb_spec c 93) as [-> |]; [| discriminate]. injection E as <- <-. exists (w1 ++ t ++ w2). split; [rewrite Es; rewrite <- !app_assoc; reflexivity |]. split; [constructor; assumption |]. intros x [<- | []]; auto.
  - intros d s m r D E. cbn [parse_members] in E. destruct (skip_ws s) as [|q r0] eqn:E0; [discriminate |]. destruct (Z.eqb_spec q 34) as [-> |]; [| discriminate]. destruct (skip_head _ _ _ E0) as (w1 & -> & W1).
    destruct (scan_string r0) as [[k r1] |] eqn:EK; [| discriminate]. apply scan_string_sound in EK as [-> CK]. destruct (skip_ws r1) as [|c r2] eqn:E1; [discriminate |]. destruct (Z.eqb_spec c 58) as [-> |]; [| discriminate]. destruct (skip_head _ _ _ E1) as (w2 & -> & W2).
    destruct (parse_value f d (skip_ws r2)) as [[v r3] |] eqn:EV; [| discriminate]. destruct (IV _ _ _ _ D EV) as (t & Et & HV & DV). destruct (skip_split r2) as (w3 & Er2 & W3). rewrite Et in Er2. subst r2.
    destruct (skip_ws r3) as [|c r4] eqn:Er; [discriminate |]. destruct (skip_head _ _ _ Er) as (w4 & -> & W4). destruct (Z.eqb_spec c 44) as [-> | N].
    + destruct (parse_members f d (skip_ws r4)) as [[l' t'] |] eqn:EE; [| discriminate]. injection E as <- <-. destruct (IM _ _ _ _ D EE) as (u & -> & HE & DE). exists (w1 ++ 34 :: k ++ 34 :: w2 ++ 58 :: w3 ++ t ++ w4 ++ 44 :: u).
      split; [repeat (rewrite <- !app_assoc; cbn [app]); reflexivity |]. split; [constructor; assumption |]. intros x [<- | I]; auto.
    + destruct (Z.eqb_spec c 125) as [-> |]; [| discriminate]. injection E as <- <-. exists (w1 ++ 34 :: k ++ 34 :: w2 ++ 58 :: w3 ++ t ++ w4). split; [repeat (rewrite <- !app_assoc; cbn [app]); reflexivity |]. split; [constructor; assumption |]. intros x [<- | []]; auto.
Qed.
Theorem json_parse_spec s v : json_parse s = Some v <-> json_text v s /\ depth v <= 10000.
Proof.
  unfold json_parse. split.
  - destruct (parse_value _ _ _) as [[v' r] |] eqn:E; [| discriminate]. destruct (skip_ws r) as [|] eqn:Er; [| discriminate]. intros Q. injection Q as <-. destruct (parse_sound (S (2 * length s))) as (IV & _). destruct (IV 10000 _ _ _ ltac:(lia) E) as (t & Et & HV & D).
    destruct (skip_split s) as (w & Es & W). rewrite Et in Es. split; [| exact D]. exists w, t, r. split; [exact Es |]. split; [exact W |]. split; [exact HV | apply skip_all; exact Er].
  - intros [(w1 & t & w2 & -> & W1 & HV & W2) D]. rewrite skip_app by exact W1. destruct (value_head v t HV) as (c & u & Et & X & _).
    assert (EQ : skip_ws (t ++ w2) = t ++ w2) by (rewrite Et; apply (skip_stop c (u ++ w2)); exact X). rewrite EQ. destruct parse_complete as (PV & _ & _).
    rewrite (PV v t HV (S (2 * length (w1 ++ t ++ w2))) 10000 w2); [rewrite ws_skip by exact W2; reflexivity | rewrite !app_length; lia | exact D |]. rewrite <- (app_nil_r w2). apply stop_ws; [exact W2 | exact stop_nil].
Qed.
