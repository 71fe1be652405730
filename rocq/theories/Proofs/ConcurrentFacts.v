(** Programs of memory accesses: without a race every interleaving is like running one after the other. *)
From Verif.Model Require Import Base Cbor Address Tx Builder Concurrent.
From Verif.Spec Require Import RaceSpec.
From Coq Require Import Eqdep_dec.

Lemma set_same m l v : set m l v l = v.
Proof. unfold set. destruct (loc_eq_dec l l) as [e | n]; [| congruence]. rewrite (UIP_dec loc_eq_dec e eq_refl). reflexivity. Qed.
Lemma set_other m l v l' : l <> l' -> set m l v l' = m l'.
Proof. intros N. unfold set. destruct (loc_eq_dec l l'); [contradiction | reflexivity]. Qed.
Lemma set_ext m m' l v : forall l', (l <> l' -> m l' = m' l') -> set m l v l' = set m' l v l'.
Proof. intros l' E. destruct (loc_eq_dec l l') as [<- | N]; [rewrite !set_same; reflexivity | rewrite !set_other by exact N; auto]. Qed.

Lemma answer_seq {A B} (p : prog A) (f : A -> prog B) : forall m, answer (seq_prog p f) m = answer (f (answer p m)) (final p m).
Proof. induction p as [a | l k IH | l v p IH]; intros m; cbn [seq_prog answer final]; auto. Qed.
Lemma final_seq {A B} (p : prog A) (f : A -> prog B) : forall m, final (seq_prog p f) m = final (f (answer p m)) (final p m).
Proof. induction p as [a | l k IH | l v p IH]; intros m; cbn [seq_prog answer final]; auto. Qed.
Lemma log_seq {A B} (p : prog A) (f : A -> prog B) : forall m, log (seq_prog p f) m = log p m ++ log (f (answer p m)) (final p m).
Proof. induction p as [a | l k IH | l v p IH]; intros m; cbn [seq_prog answer final log app]; [reflexivity | rewrite IH; reflexivity | rewrite IH; reflexivity]. Qed.

Lemma not_written {A} (p : prog A) : forall m l, ~ In (W l) (log p m) -> final p m l = m l.
Proof.
  induction p as [a | l k IH | l v p IH]; intros m l' N; cbn [log final In] in *; [reflexivity | apply IH; tauto |].
  rewrite IH by tauto. apply set_other. intros ->. tauto.
Qed.
Lemma agree {A} (p : prog A) : forall m m', (forall l, In (R l) (log p m) -> m l = m' l) ->
  log p m' = log p m /\ answer p m' = answer p m /\ forall l, (m l = m' l \/ In (W l) (log p m)) -> final p m' l = final p m l.
Proof.
  induction p as [a | l k IH | l v p IH]; intros m m' E; cbn [log answer final In] in *.
  - split; [reflexivity |]. split; [reflexivity |]. intros l [H | []]. auto.
  - rewrite <- (E l (or_introl eq_refl)). destruct (IH (m l) m m') as (A1 & A2 & A3); [intros l' H; apply E; auto |].
    rewrite A1, A2. split; [reflexivity |]. split; [reflexivity |]. intros l' [H | [H | H]]; [apply A3; auto | discriminate | apply A3; auto].
  - destruct (IH (set m l v) (set m' l v)) as (A1 & A2 & A3); [intros l' H; apply set_ext; intros _; apply E; auto |].
    rewrite A1, A2. split; [reflexivity |]. split; [reflexivity |]. intros l' [H | [H | H]]; apply A3; [left; apply set_ext; auto | | right; exact H].
    injection H as ->. left. rewrite !set_same. reflexivity.
Qed.
Lemma race_l a p q : race p q -> race (a :: p) q.
Proof. intros (l & H). exists l. cbn [In]. tauto. Qed.
Lemma race_r a p q : race p q -> race p (a :: q).
Proof. intros (l & H). exists l. cbn [In]. tauto. Qed.

Theorem no_race_sequential {A B} (p : prog A) (q : prog B) m a b m' : both p q m a b m' -> ~ race (log p m) (log q m) ->
  a = answer p m /\ b = answer q m /\ forall l, m' l = final q (final p m) l.
Proof.
  intros X. induction X as [a b m | l k q m a b m' X IH | l v p q m a b m' X IH | p l k m a b m' X IH | p l v q m a b m' X IH]; intros N; cbn [answer final log] in *.
  - auto.
  - apply IH. intros H. apply N. apply race_l, H.
  - assert (NR : ~ In (R l) (log q m) /\ ~ In (W l) (log q m)) by (split; intros H; apply N; exists l; cbn [In]; tauto).
    destruct (agree q m (set m l v)) as (L & A1 & F); [intros l' H; symmetry; apply set_other; intros ->; tauto |].
    rewrite L in IH. rewrite A1 in IH. apply IH. intros H. apply N. apply race_l, H.
  - destruct IH as (E1 & E2 & E3); [intros H; apply N; apply race_r, H |]. split; [exact E1 |].
    assert (Q : final p m l = m l) by (apply not_written; intros H; apply N; exists l; cbn [In]; tauto). rewrite Q. auto.
  - assert (NR : ~ In (R l) (log p m) /\ ~ In (W l) (log p m)) by (split; intros H; apply N; exists l; cbn [In]; tauto).
    destruct (agree p m (set m l v)) as (L & A1 & F); [intros l' H; symmetry; apply set_other; intros ->; tauto |].
    rewrite L, A1 in IH. destruct IH as (E1 & E2 & E3); [intros H; apply N; apply race_r, H |]. split; [exact E1 |]. split; [exact E2 |]. intros l'. rewrite E3.
    assert (P : forall y, final p (set m l v) y = set (final p m) l v y).
    { intros y. destruct (loc_eq_dec l y) as [<- | D]; [rewrite set_same; rewrite not_written by (rewrite L; tauto); apply set_same |]. rewrite (set_other (final p m)) by exact D. apply F. left. symmetry. apply set_other. exact D. }
    destruct (agree q (set (final p m) l v) (final p (set m l v))) as (_ & _ & G); [intros y _; symmetry; apply P |]. apply G. left. symmetry. apply P.
Qed.
(** One after the other is one of the interleavings. *)
Lemma both_second {A B} (p : prog A) (q : prog B) : forall m, both p q m (answer p m) (answer q (final p m)) (final q (final p m)).
Proof.
  induction p as [a | l k IH | l v p IH]; intros m; cbn [answer final]; [| constructor; apply IH | constructor; apply IH].
  revert m. induction q as [b | l k IH | l v q IH]; intros m; cbn [answer final]; constructor; apply IH.
Qed.
Lemma both_first {A B} (p : prog A) (q : prog B) : forall m, both p q m (answer p (final q m)) (answer q m) (final p (final q m)).
Proof.
  induction q as [a | l k IH | l v q IH]; intros m; cbn [answer final]; [| constructor; apply IH | constructor; apply IH].
  revert m. induction p as [b | l k IH | l v p IH]; intros m; cbn [answer final]; constructor; apply IH.
Qed.
