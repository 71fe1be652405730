(** Unquoted keys and the field they name. *)
From Verif.Model Require Import Base Bech32 Node Json.
From Verif.Spec Require Import JsonSpec Utf8Spec.
From Verif.Proofs Require Import Util Bech32Facts JsonFacts.
From Verif.Proofs Require Export Utf8Facts.
Open Scope Z_scope.

(** ** Unquoting *)
Lemma hexval_digit h n : hexval h n -> is_hex h = true /\ hex_digit h = n /\ 0 <= n < 16.
Proof.
  intros H. destruct H; (split; [apply is_hex_spec; unfold hex; lia |]; split; [| lia]); unfold hex_digit, is_digit.
  - rewrite (proj2 (Z.leb_le 48 _)), (proj2 (Z.leb_le _ 57)) by lia. cbn [andb]. lia.
  - rewrite (proj2 (Z.leb_gt _ 57)), andb_false_r, (proj2 (Z.leb_le 97 _)) by lia. lia.
  - rewrite (proj2 (Z.leb_gt _ 57)), andb_false_r, (proj2 (Z.leb_gt 97 _)) by lia. lia.
Qed.
Lemma getu4_hex h n r : hex4 h n -> getu4 (92 :: 117 :: h ++ r) = Some n /\ 0 <= n < 65536 /\ length h = 4%nat.
Proof.
  intros (h1 & h2 & h3 & h4 & a & b & c & d & -> & A & B & C & D & ->). apply hexval_digit in A as (A1 & A2 & A3), B as (B1 & B2 & B3), C as (C1 & C2 & C3), D as (D1 & D2 & D3).
  split; [| split; [lia | reflexivity]]. cbn [app getu4]. cbn [Z.eqb Pos.eqb andb]. rewrite A1, B1, C1, D1, A2, B2, C2, D2. cbn [andb]. f_equal. lia.
Qed.
Lemma escape_facts e x : In (e, x) escapes -> e <> 117 /\ unescape e = x /\ 0 <= x < 128.
Proof. intros I. cbn in I. repeat (destruct I as [I | I]; [injection I as <- <-; split; [discriminate |]; split; [reflexivity | lia] |]). contradiction. Qed.
Lemma encode_ascii c : 0 <= c < 128 -> encode_rune c = [c].
Proof. intros C. unfold encode_rune. rewrite (proj2 (Z.ltb_lt c 128)) by lia. reflexivity. Qed.
Lemma skip_hex h r : length h = 4%nat -> skipn 6 (92 :: 117 :: h ++ r) = r.
Proof. intros L. change (skipn 6 (92 :: 117 :: h ++ r)) with (skipn 4 (h ++ r)). rewrite skipn_app, skipn_all2, L by lia. reflexivity. Qed.
Lemma unquote_loop_spec raw l : string_of raw l -> forall f, (length raw <= f)%nat -> unquote_loop f raw = flat_map encode_rune l /\ Forall scalar l.
Proof.
  intros H. induction H as [| c b r l SC A B C U _ IH | e x r l I _ IH | h n r l HX SC _ IH | h n h' n' r l HX N HX' N' _ IH]; intros f L.
  - split; [destruct f; reflexivity | constructor].
  - rewrite app_length in L. destruct (utf8_range c b U) as [[C1 ->] | (C1 & x & b' & Eb & X)].
    + cbn [length] in L. destruct f as [|f]; [lia |]. destruct (IH f ltac:(lia)) as [E F]. split; [| constructor; assumption]. cbn [app unquote_loop flat_map]. rewrite (proj2 (Z.eqb_neq _ _) C), (proj2 (Z.ltb_lt _ _) C1), E, encode_ascii by lia. reflexivity.
    + assert (1 <= length b)%nat by (rewrite Eb; cbn; lia). destruct f as [|f]; [lia |]. destruct (IH f ltac:(lia)) as [E F]. split; [| constructor; assumption].
      pose proof (decode_utf8 c b r U SC) as DR. pose proof (encode_utf8 c b U) as EN.
      assert (G : unquote_loop (S f) (b ++ r) = let '(rr, size) := decode_rune (b ++ r) in encode_rune rr ++ unquote_loop f (skipn size (b ++ r))).
      { rewrite Eb. cbn [app unquote_loop]. rewrite (proj2 (Z.eqb_neq x 92)), (proj2 (Z.ltb_ge x 128)) by lia. reflexivity. }
      rewrite G, DR. cbn [flat_map]. f_equal. rewrite skipn_app, skipn_all2, Nat.sub_diag by lia. exact E.
  - cbn [length] in L. destruct f as [|f]; [lia |]. destruct (IH f ltac:(lia)) as [E F]. destruct (escape_facts e x I) as (A & B & C). split; [| constructor; [left; lia | exact F]].
    cbn [unquote_loop Z.eqb Pos.eqb]. assert (GN : getu4 (92 :: e :: r) = None).
    { unfold getu4. destruct r as [|? [|? [|? [|? ?]]]]; try reflexivity. rewrite (proj2 (Z.eqb_neq _ _) A). reflexivity. }
    rewrite GN, E, B. cbn [flat_map]. rewrite encode_ascii by lia. reflexivity.
  - destruct (getu4_hex h n r HX) as (G & R & LH). cbn [length] in L. rewrite app_length in L. destruct f as [|f]; [lia |]. destruct (IH f ltac:(lia)) as [E F]. split; [| constructor; assumption].
    cbn [unquote_loop Z.eqb Pos.eqb]. rewrite G. replace (in_range 55296 57343 n) with false by (symmetry; unfold scalar in SC; rng). rewrite skip_hex, E by exact LH. reflexivity.
  - destruct (getu4_hex h n (92 :: 117 :: h' ++ r) HX) as (G & R & LH). destruct (getu4_hex h' n' r HX') as (G' & R' & LH'). cbn [length] in L. rewrite !app_length in L. cbn [length] in L. rewrite app_length in L. destruct f as [|f]; [lia |]. destruct (IH f ltac:(lia)) as [E F].
    split; [| constructor; [unfold scalar; lia | exact F]]. cbn [unquote_loop Z.eqb Pos.eqb]. rewrite G. replace (in_range 55296 57343 n) with true by (symmetry; rng). rewrite (skip_hex h) by exact LH. rewrite G'.
    replace (in_range 55296 56319 n) with true by (symmetry; rng). replace (in_range 56320 57343 n') with true by (symmetry; rng). cbn [andb flat_map]. f_equal; [f_equal; lia |].
    change (skipn 12 (92 :: 117 :: h ++ 92 :: 117 :: h' ++ r)) with (skipn (6 + 6) (92 :: 117 :: h ++ 92 :: 117 :: h' ++ r)). assert (SS : forall (A : Type) (m k : nat) (l : list A), skipn (m + k) l = skipn k (skipn m l)) by (clear; intros A m; induction m as [|m IH]; intros k l; [reflexivity | destruct l; [destruct k; reflexivity | apply IH]]).
    rewrite SS, (skip_hex h) by exact LH. rewrite (skip_hex h') by exact LH'. exact E.
Qed.
Lemma unquote_spec raw l : string_of raw l -> unquote raw = flat_map encode_rune l /\ Forall scalar l.
Proof. intros H. apply (unquote_loop_spec raw l H). lia. Qed.

(** ** Folding *)
Definition letter (b : Z) : Prop := 65 <= b <= 90 \/ 97 <= b <= 122.
Definition letters : list Z := map Z.of_nat (seq 65 26 ++ seq 97 26).
Definition asciis : list Z := map Z.of_nat (seq 0 128).
Lemma in_letters b : letter b -> In b letters.
Proof. intros H. unfold letters. replace b with (Z.of_nat (Z.to_nat b)) by (unfold letter in H; lia). apply in_map, in_app_iff. unfold letter in H. destruct H; [left | right]; apply in_seq; lia. Qed.
Lemma in_asciis c : 0 <= c < 128 -> In c asciis.
Proof. intros H. unfold asciis. replace c with (Z.of_nat (Z.to_nat c)) by lia. apply in_map, in_seq. lia. Qed.
Lemma mask_fold b c : letter b -> 0 <= c < 128 -> (mask_case b =? mask_case c) = (fold_char c =? fold_char b).
Proof.
  intros B C. assert (F : forallb (fun b => forallb (fun c => Bool.eqb (mask_case b =? mask_case c) (fold_char c =? fold_char b)) asciis) letters = true) by (vm_compute; reflexivity).
  rewrite forallb_forall in F. specialize (F b (in_letters b B)). rewrite forallb_forall in F. specialize (F c (in_asciis c C)). apply Bool.eqb_prop in F. exact F.
Qed.
Lemma mask_letter b : letter b -> in_range 65 90 (mask_case b) = true /\ fold_char b = mask_case b + 32.
Proof.
  intros B. assert (F : forallb (fun b => in_range 65 90 (mask_case b) && (fold_char b =? mask_case b + 32)) letters = true) by (vm_compute; reflexivity).
  rewrite forallb_forall in F. specialize (F b (in_letters b B)). apply andb_true_iff in F as [A E]. split; [exact A | apply Z.eqb_eq; exact E].
Qed.
Lemma mask_high x : 128 <= x < 256 -> 128 <= mask_case x.
Proof.
  intros X. assert (F : forallb (fun x => 128 <=? mask_case x) (map Z.of_nat (seq 128 128)) = true) by (vm_compute; reflexivity). rewrite forallb_forall in F.
  specialize (F x). apply Z.leb_le, F. replace x with (Z.of_nat (Z.to_nat x)) by lia. apply in_map, in_seq. lia.
Qed.
Lemma fold_high c : 128 <= c -> fold_char c = (if c =? 383 then 115 else if c =? 8490 then 107 else c).
Proof. intros C. unfold fold_char. rewrite (proj2 (Z.leb_gt c 90)), andb_false_r by lia. reflexivity. Qed.
Lemma encode_high c : scalar c -> 128 <= c -> exists x r, encode_rune c = x :: r /\ 128 <= x < 256.
Proof. intros S C. pose proof (utf8_total c S) as U. revert U. generalize (encode_rune c). intros b U. unfold scalar in S. destruct U; [lia | | |]; (eexists; eexists; split; [reflexivity | lia]). Qed.

Lemma simple_fold_spec name l : Forall letter name -> special_fold name = false -> Forall scalar l -> simple_fold name (flat_map encode_rune l) = true <-> map fold_char l = map fold_char name.
Proof.
  intros N. revert l. induction N as [|b name B _ IH]; intros l SF S.
  - destruct S as [|c l SC _]; [split; reflexivity |]. split; [| discriminate]. cbn [simple_fold flat_map]. destruct (encode_rune c) as [|x r] eqn:E; [| discriminate]. pose proof (utf8_total c SC) as U. rewrite E in U. inversion U.
  - cbn [special_fold existsb] in SF. apply orb_false_iff in SF as [SB SF]. apply orb_false_iff in SB as [SK SS]. apply Z.eqb_neq in SK, SS. destruct (mask_letter b B) as [ML FL].
    destruct S as [|c l SC S]; [split; discriminate |]. cbn [flat_map map]. destruct (Z_lt_le_dec c 128) as [C | C].
    + assert (C0 : 0 <= c < 128) by (unfold scalar in SC; lia). rewrite encode_ascii by exact C0. cbn [app simple_fold]. rewrite andb_true_iff, mask_fold by assumption. rewrite (IH l SF S), Z.eqb_eq. split; [intros [-> ->]; reflexivity | intros E; injection E as -> ->; auto].
    + destruct (encode_high c SC C) as (x & r & E & X). rewrite E. cbn [app simple_fold]. pose proof (mask_high x X). assert (65 <= mask_case b <= 90) by (unfold in_range in ML; lia). rewrite (proj2 (Z.eqb_neq (mask_case b) (mask_case x))) by lia. split; [discriminate |].
      intros Q. injection Q as Q _. rewrite fold_high, FL in Q by exact C. destruct (Z.eqb_spec c 383), (Z.eqb_spec c 8490); lia.
Qed.
Lemma fold_right_spec name l : Forall letter name -> Forall scalar l -> fold_right_eq name (flat_map encode_rune l) = true <-> map fold_char l = map fold_char name.
Proof.
  intros N. revert l. induction N as [|b name B _ IH]; intros l S.
  - destruct S as [|c l SC _]; [split; reflexivity |]. split; [| discriminate]. cbn [fold_right_eq flat_map]. destruct (encode_rune c) as [|x r] eqn:E; [| discriminate]. pose proof (utf8_total c SC) as U. rewrite E in U. inversion U.
  - destruct (mask_letter b B) as [ML FL]. destruct S as [|c l SC S]; [split; discriminate |]. cbn [flat_map map]. destruct (Z_lt_le_dec c 128) as [C | C].
    + assert (C0 : 0 <= c < 128) by (unfold scalar in SC; lia). rewrite encode_ascii by exact C0. cbn [app fold_right_eq]. rewrite (proj2 (Z.ltb_lt c 128) C), ML, mask_fold by assumption. cbn [andb].
      destruct (Z.eqb_spec b c) as [-> | NE]; [rewrite (IH l S); split; [intros ->; reflexivity | intros E; injection E as ->; reflexivity] |].
      destruct (Z.eqb_spec (fold_char c) (fold_char b)) as [E | E]; [rewrite (IH l S); split; [intros ->; congruence | intros Q; injection Q as _ ->; reflexivity] | split; [discriminate | intros Q; injection Q as Q _; contradiction]].
    + destruct (encode_high c SC C) as (x & r & E & X). pose proof (decode_utf8 c _ (flat_map encode_rune l) (utf8_total c SC) SC) as DR. assert (SK : skipn (length (encode_rune c)) (encode_rune c ++ flat_map encode_rune l) = flat_map encode_rune l) by (rewrite skipn_app, skipn_all2, Nat.sub_diag by lia; reflexivity).
      assert (G : fold_right_eq (b :: name) (encode_rune c ++ flat_map encode_rune l) = let '(tr, size) := decode_rune (encode_rune c ++ flat_map encode_rune l) in
        if (mask_case b =? 83) && (tr =? 383) then fold_right_eq name (skipn size (encode_rune c ++ flat_map encode_rune l)) else if (mask_case b =? 75) && (tr =? 8490) then fold_right_eq name (skipn size (encode_rune c ++ flat_map encode_rune l)) else false).
      { rewrite E at 1. cbn [app fold_right_eq]. rewrite (proj2 (Z.ltb_ge x 128)) by lia. change (x :: r ++ flat_map encode_rune l) with ((x :: r) ++ flat_map encode_rune l). rewrite <- E. reflexivity. }
      rewrite G, DR, SK. assert (65 <= mask_case b <= 90) by (unfold in_range in ML; lia). rewrite fold_high, FL by exact C.
      assert (T : forall v, v = mask_case b + 32 -> (fold_right_eq name (flat_map encode_rune l) = true <-> v :: map fold_char l = mask_case b + 32 :: map fold_char name)) by (intros v ->; rewrite (IH l S); split; [intros ->; reflexivity | intros Q; injection Q as Q; exact Q]).
      assert (T' : forall v, v <> mask_case b + 32 -> (false = true <-> v :: map fold_char l = mask_case b + 32 :: map fold_char name)) by (intros v NE; split; [discriminate | intros Q; injection Q as Q _; contradiction]).
      destruct (Z.eqb_spec c 383) as [-> | N1].
      { destruct (Z.eqb_spec (mask_case b) 83); cbn [andb]; [apply T; lia |]. rewrite andb_false_r. apply T'. lia. }
      rewrite andb_false_r. destruct (Z.eqb_spec c 8490) as [-> | N2].
      { destruct (Z.eqb_spec (mask_case b) 75); cbn [andb]; [apply T; lia | apply T'; lia]. }
      rewrite andb_false_r. apply T'. lia.
Qed.
Lemma equal_fold_spec name l : Forall letter name -> Forall scalar l -> equal_fold name (flat_map encode_rune l) = true <-> same_name name l.
Proof. intros N S. unfold equal_fold. destruct (special_fold name) eqn:E; [apply fold_right_spec | apply simple_fold_spec]; assumption. Qed.

Lemma exact_same name l : Forall letter name -> Forall scalar l -> name = flat_map encode_rune l -> l = name.
Proof.
  intros N. revert l. induction N as [|b name B _ IH]; intros l S E.
  - destruct S as [|c l SC _]; [reflexivity |]. cbn in E. destruct (encode_rune c) eqn:Q; [| discriminate]. pose proof (utf8_total c SC) as U. rewrite Q in U. inversion U.
  - destruct S as [|c l SC S]; [discriminate |]. cbn [flat_map] in E. destruct (Z_lt_le_dec c 128) as [C | C].
    + rewrite encode_ascii in E by (unfold scalar in SC; lia). injection E as -> E. f_equal. apply IH; assumption.
    + destruct (encode_high c SC C) as (x & r & Q & X). rewrite Q in E. injection E as -> _. unfold letter in B. lia.
Qed.
Lemma find_exact_spec ns key i : match find_exact ns key i with Some j => exists k, j = (i + k)%nat /\ (k < length ns)%nat /\ nth k ns [] = key | None => True end.
Proof.
  revert i. induction ns as [|n ns IH]; intros i; cbn [find_exact]; [exact I |]. destruct (bytes_eqb n key) eqn:E.
  - exists 0%nat. apply bytes_eqb_eq in E. cbn. repeat split; [lia | lia | exact E].
  - specialize (IH (S i)). destruct (find_exact ns key (S i)) as [j|]; [| exact I]. destruct IH as (k & -> & A & B). exists (S k). cbn. repeat split; [lia | lia | exact B].
Qed.
Lemma find_fold_spec ns l i : Forall (Forall letter) ns -> Forall scalar l ->
  match find_fold ns (flat_map encode_rune l) i with Some j => exists k, j = (i + k)%nat /\ (k < length ns)%nat /\ same_name (nth k ns []) l | None => forall n, In n ns -> ~ same_name n l end.
Proof.
  intros N S. revert i. induction N as [|n ns HN _ IH]; intros i; cbn [find_fold]; [intros n [] |]. pose proof (equal_fold_spec n l HN S) as Q. destruct (equal_fold n _).
  - exists 0%nat. cbn. repeat split; [lia | lia | apply Q; reflexivity].
  - specialize (IH (Datatypes.S i)). destruct (find_fold ns _ (Datatypes.S i)) as [j|]; [destruct IH as (k & -> & A & B); exists (Datatypes.S k); cbn; repeat split; [lia | lia | exact B] |].
    intros x [<- | I]; [| exact (IH x I)]. intros C. apply Q in C. discriminate.
Qed.
Lemma find_field_spec ns raw l : Forall (Forall letter) ns -> string_of raw l ->
  match find_field ns (unquote raw) with Some j => (j < length ns)%nat /\ same_name (nth j ns []) l | None => forall n, In n ns -> ~ same_name n l end.
Proof.
  intros N H. destruct (unquote_spec raw l H) as [-> S]. unfold find_field. pose proof (find_exact_spec ns (flat_map encode_rune l) 0) as E. destruct (find_exact ns _ 0) as [j|].
  - destruct E as (k & -> & K & Q). cbn [Nat.add]. split; [exact K |]. assert (NK : Forall letter (nth k ns [])) by (apply (proj1 (Forall_forall _ _) N), nth_In; exact K). unfold same_name. rewrite (exact_same _ l NK S Q). reflexivity.
  - pose proof (find_fold_spec ns l 0 N S) as F. destruct (find_fold ns _ 0) as [j|]; [destruct F as (k & -> & K & Q); auto | exact F].
Qed.
Lemma string_of_fun raw l l' : string_of raw l -> string_of raw l' -> l = l'.
Proof.
  intros A B. destruct (unquote_spec raw l A) as [E S], (unquote_spec raw l' B) as [E' S']. rewrite E in E'. clear E A B. revert l' S' E'. induction S as [|c l SC _ IH]; intros l' S' E.
  - destruct S' as [|c' l' SC' _]; [reflexivity |]. cbn in E. destruct (encode_rune c') eqn:Q; [| discriminate]. pose proof (utf8_total c' SC') as U. rewrite Q in U. inversion U.
  - destruct S' as [|c' l' SC' S']; [cbn in E; destruct (encode_rune c) eqn:Q; [| discriminate]; pose proof (utf8_total c SC) as U; rewrite Q in U; inversion U |]. cbn [flat_map] in E.
    pose proof (decode_utf8 c _ (flat_map encode_rune l) (utf8_total c SC) SC) as D. pose proof (decode_utf8 c' _ (flat_map encode_rune l') (utf8_total c' SC') SC') as D'. rewrite E, D' in D. injection D as -> _. f_equal. apply IH; [exact S' |]. apply app_inv_head in E. exact E.
Qed.

(** ** Every key the scanner accepts *)
Lemma hexval_of h : hex h -> exists n, hexval h n.
Proof. intros [H | [H | H]]; [exists (h - 48); replace h with (48 + (h - 48)) at 1 by lia | exists (h - 87); replace h with (87 + (h - 87)) at 1 by lia | exists (h - 55); replace h with (55 + (h - 55)) at 1 by lia]; constructor; lia. Qed.
Lemma hex4_of h1 h2 h3 h4 : hex h1 -> hex h2 -> hex h3 -> hex h4 -> exists n, hex4 [h1; h2; h3; h4] n.
Proof. intros A B C D. apply hexval_of in A as [a A], B as [b B], C as [c C], D as [d D]. exists (((a * 16 + b) * 16 + c) * 16 + d), h1, h2, h3, h4, a, b, c, d. auto 10. Qed.
Lemma chars_high b t : Forall (fun x => 128 <= x) b -> chars (b ++ t) -> chars t.
Proof. intros H. induction H as [|x b X _ IH]; [auto |]. cbn [app]. intros C. inversion C; subst; [apply IH; assumption | lia | lia]. Qed.
Lemma getu4_some s n : getu4 s = Some n -> exists h r, s = 92 :: 117 :: h ++ r /\ hex4 h n.
Proof.
  unfold getu4. destruct s as [|x [|y [|a [|b [|c [|d r]]]]]]; try discriminate. destruct (_ && _) eqn:E; [| discriminate]. intros Q. repeat (apply andb_true_iff in E as [E ?]). apply Z.eqb_eq in E. match goal with H : (y =? 117) = true |- _ => apply Z.eqb_eq in H end. subst x y.
  repeat match goal with H : is_hex _ = true |- _ => apply is_hex_spec in H end. destruct (hex4_of a b c d) as [n' H4]; try assumption. exists [a; b; c; d], r. split; [reflexivity |].
  destruct (getu4_hex _ _ r H4) as (G & _). unfold getu4 in G. cbn [app Z.eqb Pos.eqb andb] in G. rewrite !(proj2 (is_hex_spec _)) in G by assumption. cbn [andb] in G. rewrite G in Q. injection Q as <-. exact H4.
Qed.
Lemma unquote_total_n f : forall raw, chars raw -> (length raw <= f)%nat -> exists l, unquote_loop f raw = flat_map encode_rune l /\ Forall scalar l /\ (In RuneError l \/ string_of raw l).
Proof.
  assert (RE : scalar RuneError) by (right; unfold RuneError; lia).
  induction f as [|f IH]; intros raw CH L. { destruct raw; [| cbn in L; lia]. exists []. split; [reflexivity |]. split; [constructor | right; constructor]. }
  inversion CH as [| c r A B C CR | e x r I CR | h1 h2 h3 h4 r H1 H2 H3 H4 CR]; subst raw.
  - exists []. split; [reflexivity |]. split; [constructor | right; constructor].
  - destruct (Z_lt_le_dec c 128) as [C1 | C1].
    + destruct (IH r CR ltac:(cbn in L; lia)) as (l & E & S & O). exists (c :: l). cbn [unquote_loop flat_map]. rewrite (proj2 (Z.eqb_neq _ _) C), (proj2 (Z.ltb_lt _ _) C1), E, encode_ascii by lia. split; [reflexivity |]. assert (SC : scalar c) by (left; lia). split; [constructor; assumption |].
      destruct O as [O | O]; [left; right; exact O | right; apply (s_plain c [c]); try assumption; constructor; lia].
    + cbn [unquote_loop]. rewrite (proj2 (Z.eqb_neq _ _) C), (proj2 (Z.ltb_ge _ _) C1). destruct (decode_rune (c :: r)) as [rr size] eqn:ED. destruct (decode_inv c r rr size C1 ED) as [[-> ->] | (b & t & Eb & U & SC & -> & R & HB)].
      * destruct (IH r CR ltac:(cbn in L; lia)) as (l & E & S & O). exists (RuneError :: l). cbn [skipn]. rewrite E. split; [reflexivity |]. split; [constructor; assumption | left; left; reflexivity].
      * rewrite Eb in *. assert (b <> []) by (intros ->; inversion U). assert (LB : (length b <> 0)%nat) by (destruct b; [contradiction | cbn; lia]). rewrite app_length in L. pose proof (chars_high b t HB CH) as CT. destruct (IH t CT ltac:(lia)) as (l & E & S & O). exists (rr :: l).
        rewrite skipn_app, skipn_all2, Nat.sub_diag by lia. cbn [app skipn]. rewrite E. split; [reflexivity |]. split; [constructor; assumption |]. destruct O as [O | O]; [left; right; exact O | right; apply (s_plain rr b); try assumption; lia].
  - destruct (escape_facts e x I) as (A & B & C). destruct (IH r CR ltac:(cbn in L; lia)) as (l & E & S & O). exists (x :: l). cbn [unquote_loop Z.eqb Pos.eqb]. assert (GN : getu4 (92 :: e :: r) = None).
    { unfold getu4. destruct r as [|? [|? [|? [|? ?]]]]; try reflexivity. rewrite (proj2 (Z.eqb_neq _ _) A). reflexivity. }
    rewrite GN, E, B. cbn [flat_map]. rewrite encode_ascii by lia. split; [reflexivity |]. split; [constructor; [left; lia | exact S] |]. destruct O as [O | O]; [left; right; exact O | right; constructor; assumption].
  - destruct (hex4_of h1 h2 h3 h4 H1 H2 H3 H4) as [n HX]. destruct (getu4_hex _ n r HX) as (G & R & LH). cbn [app] in G. cbn [unquote_loop Z.eqb Pos.eqb]. rewrite G. pose proof (skip_hex [h1; h2; h3; h4] r LH) as SK. cbn [app] in SK. cbn [length] in L.
    destruct (IH r CR ltac:(lia)) as (l & E & S & O). destruct (in_range 55296 57343 n) eqn:RN.
    + assert (LONE : exists l, encode_rune RuneError ++ unquote_loop f r = flat_map encode_rune l /\ Forall scalar l /\ (In RuneError l \/ string_of (92 :: 117 :: h1 :: h2 :: h3 :: h4 :: r) l)).
      { exists (RuneError :: l). rewrite E. split; [reflexivity |]. split; [constructor; assumption | left; left; reflexivity]. }
      rewrite SK. destruct (getu4 r) as [n1|] eqn:G1; [| exact LONE]. destruct (in_range 55296 56319 n && in_range 56320 57343 n1) eqn:RP; [| exact LONE]. clear LONE l E S O.
      apply andb_true_iff in RP as [RA RB]. apply in_range_spec in RA, RB. apply getu4_some in G1 as (h' & r1 & -> & HX'). destruct (getu4_hex h' n1 r1 HX') as (G' & R' & LH').
      assert (CR1 : chars r1). { destruct HX' as (a1 & a2 & a3 & a4 & ? & ? & ? & ? & -> & _). cbn [app] in CR. inversion CR as [| | e0 y0 r0 I0 CC | ]; subst; [congruence | | assumption]. apply escape_facts in I0 as (I0 & _). congruence. }
      cbn [length] in L. rewrite app_length in L. destruct (IH r1 CR1 ltac:(lia)) as (l & E & S & O). exists ((n - 55296) * 1024 + (n1 - 56320) + 65536 :: l).
      change (skipn 12 (92 :: 117 :: h1 :: h2 :: h3 :: h4 :: 92 :: 117 :: h' ++ r1)) with (skipn 6 (92 :: 117 :: h' ++ r1)). rewrite (skip_hex h') by exact LH'. rewrite E. split; [reflexivity |]. split; [constructor; [unfold scalar; lia | exact S] |].
      destruct O as [O | O]; [left; right; exact O | right]. replace ((n - 55296) * 1024 + (n1 - 56320) + 65536) with (65536 + (n - 55296) * 1024 + (n1 - 56320)) by lia. apply (s_pair [h1; h2; h3; h4] n h' n1); try assumption; lia.
    + rewrite SK, E. assert (SC : scalar n) by (unfold in_range in RN; unfold scalar; lia). exists (n :: l). split; [reflexivity |]. split; [constructor; assumption |]. destruct O as [O | O]; [left; right; exact O | right; apply (s_uni [h1; h2; h3; h4]); assumption].
Qed.
Lemma find_names ns raw : Forall (Forall letter) ns -> chars raw ->
  match find_field ns (unquote raw) with Some j => (j < length ns)%nat /\ names (nth j ns []) raw | None => forall n, In n ns -> ~ names n raw end.
Proof.
  intros N C. destruct (unquote_total_n (length raw) raw C ltac:(lia)) as (l & E & S & O). fold (unquote raw) in E. destruct O as [O | O].
  - assert (X : forall n, In n ns -> ~ same_name n l).
    { intros n I Q. apply (in_map fold_char) in O. unfold same_name in Q. rewrite Q in O. apply in_map_iff in O as (b & EB & IB). rewrite Forall_forall in N. specialize (N n I). rewrite Forall_forall in N. specialize (N b IB). destruct (mask_letter b N) as [ML FL]. apply in_range_spec in ML. rewrite FL in EB. change (fold_char RuneError) with 65533 in EB. lia. }
    assert (Y : find_field ns (unquote raw) = None).
    { destruct (find_field ns (unquote raw)) as [j|] eqn:F; [| reflexivity]. exfalso. rewrite E in F. unfold find_field in F. pose proof (find_exact_spec ns (flat_map encode_rune l) 0) as X1. destruct (find_exact ns _ 0).
      - destruct X1 as (k & -> & K & Q). assert (NK : Forall letter (nth k ns [])) by (apply (proj1 (Forall_forall _ _) N), nth_In; exact K). apply (X (nth k ns [])); [apply nth_In; exact K |]. unfold same_name. rewrite (exact_same _ l NK S Q). reflexivity.
      - pose proof (find_fold_spec ns l 0 N S) as X2. destruct (find_fold ns _ 0); [| discriminate]. destruct X2 as (k & -> & K & Q). apply (X (nth k ns [])); [apply nth_In; exact K | exact Q]. }
    rewrite Y. intros n I (l' & SO & Q). destruct (unquote_spec raw l' SO) as [E' S']. rewrite E' in E. assert (l = l').
    { clear - E S S'. revert l' S' E. induction S as [|c l SC _ IH]; intros l' S' E.
      - destruct S' as [|c' l' SC' _]; [reflexivity |]. cbn in E. destruct (encode_rune c') eqn:Q; [| discriminate]. pose proof (utf8_total c' SC') as U. rewrite Q in U. inversion U.
      - destruct S' as [|c' l' SC' S']; [cbn in E; destruct (encode_rune c) eqn:Q; [| discriminate]; pose proof (utf8_total c SC) as U; rewrite Q in U; inversion U |]. cbn [flat_map] in E.
        pose proof (decode_utf8 c _ (flat_map encode_rune l) (utf8_total c SC) SC) as D. pose proof (decode_utf8 c' _ (flat_map encode_rune l') (utf8_total c' SC') SC') as D'. rewrite E, D in D'. injection D' as -> _. f_equal. apply IH; [exact S' |]. apply app_inv_head in E. exact E. }
    subst l'. exact (X n I Q).
  - pose proof (find_field_spec ns raw l N O) as F. destruct (find_field ns (unquote raw)) as [j|].
    + destruct F as [J Q]. split; [exact J |]. exists l. auto.
    + intros n I (l' & SO & Q). rewrite (string_of_fun raw l' l SO O) in Q. exact (F n I Q).
Qed.
