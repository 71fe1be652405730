(** Metadata maps whose order shows. *)
From Coq Require Import Permutation.
From Verif.Model Require Import Base Cbor Tx.
From Verif.Spec Require Import CborSpec MdSpec.
From Verif.Proofs Require Import Util CborFacts TxFacts.

Definition md_eq_dec : forall x y : md, {x = y} + {x <> y}.
Proof.
  fix IH 1. intros x y. destruct x as [a | a | a | a | a | | l | l | l | t v | d n |], y as [b | b | b | b | b | | l' | l' | l' | t' v' | d' n' |]; try (right; discriminate); try (left; reflexivity).
  - destruct (Z.eq_dec a b) as [-> | N]; [left | right]; congruence.
  - destruct (Z.eq_dec a b) as [-> | N]; [left | right]; congruence.
  - destruct (list_eq_dec Z.eq_dec a b) as [-> | N]; [left | right]; congruence.
  - destruct (list_eq_dec Z.eq_dec a b) as [-> | N]; [left | right]; congruence.
  - destruct (Bool.bool_dec a b) as [-> | N]; [left | right]; congruence.
  - assert (D : {l = l'} + {l <> l'}).
    { revert l'. induction l as [| x l IHl]; intros [| y l']; try (right; discriminate); [left; reflexivity |].
      destruct (IH x y) as [-> | N]; [| right; congruence]. destruct (IHl l') as [-> | N]; [left | right]; congruence. }
    destruct D as [-> | N]; [left | right]; congruence.
  - assert (D : {l = l'} + {l <> l'}).
    { revert l'. induction l as [| [k v] l IHl]; intros [| [k' v'] l']; try (right; discriminate); [left; reflexivity |].
      destruct (IH k k') as [-> | N]; [| right; congruence]. destruct (IH v v') as [-> | N]; [| right; congruence].
      destruct (IHl l') as [-> | N]; [left | right]; congruence. }
    destruct D as [-> | N]; [left | right]; congruence.
  - assert (D : {l = l'} + {l <> l'}).
    { revert l'. induction l as [| [k v] l IHl]; intros [| [k' v'] l']; try (right; discriminate); [left; reflexivity |].
      destruct (IH k k') as [-> | N]; [| right; congruence]. destruct (IH v v') as [-> | N]; [| right; congruence].
      destruct (IHl l') as [-> | N]; [left | right]; congruence. }
    destruct D as [-> | N]; [left | right]; congruence.
  - destruct (Z.eq_dec t t') as [-> | N]; [| right; congruence]. destruct (IH v v') as [-> | N]; [left | right]; congruence.
  - destruct (Bool.bool_dec d d') as [-> | N]; [| right; congruence]. destruct (Z.eq_dec n n') as [-> | N]; [left | right]; congruence.
Defined.

Definition order_free_dec : forall m, {order_free m} + {~ order_free m}.
Proof.
  fix IH 1. intros m. destruct m as [a | a | a | a | a | | l | l | l | t v | d n |]; try (left; exact I).
  - cbn [order_free]. induction l as [| x l IHl]; [left; exact I |]. cbn [fold_right].
    destruct (IH x) as [H | H]; [| right; tauto]. destruct IHl as [K | K]; [left | right]; tauto.
  - destruct l as [| [k v] [| [k2 v2] l]]; cbn [order_free]; [left; exact I | | right; auto].
    destruct (IH k) as [H | H]; [| right; tauto]. destruct (IH v) as [K | K]; [left | right]; tauto.
  - cbn [order_free]. induction l as [| [k v] l IHl]; [left; exact I |]. cbn [fold_right].
    destruct (IH k) as [H | H]; [| right; tauto]. destruct (IH v) as [G | G]; [| right; tauto]. destruct IHl as [K | K]; [left | right]; tauto.
  - exact (IH v).
Defined.

(** Some other order of the entries gives other bytes. *)
Lemma order_shows m : distinct_keys m -> ~ order_free m -> exists m', md_perm m m' /\ md_item m' <> md_item m.
Proof.
  induction m as [n | n | b | b | b | | l IH | l IH | l IH | t v IH | d n |] using md_ind'; intros D F; try (destruct F; exact I).
  - cbn [order_free distinct_keys] in *. rewrite fold_right_Forall in F, D.
    assert (G : exists l', Forall2 md_perm l l' /\ map md_item l' <> map md_item l).
    { induction IH as [| x l Hx Hl IHl]; [destruct F; constructor |]. inversion D as [| ? ? D1 D2]; subst.
      destruct (order_free_dec x) as [Q | Q].
      - destruct IHl as (l' & H1 & H2); auto. exists (x :: l'). split; [constructor; [constructor | exact H1] |]. cbn [map]. congruence.
      - destruct (Hx D1 Q) as (x' & H1 & H2). exists (x' :: l). split; [| cbn [map]; congruence].
        constructor; [exact H1 |]. clear. induction l; constructor; auto. constructor. }
    destruct G as (l' & H1 & H2). exists (MdArray l'). split; [constructor; exact H1 |]. cbn [md_item]. congruence.
  - destruct l as [| [k v] [| [k2 v2] l]]; cbn [order_free distinct_keys] in *; [destruct F; exact I | |].
    + destruct D as (_ & Dk & Dv & _). inversion IH as [| ? ? [Hk Hv] _]; subst. cbn [fst snd] in *.
      destruct (order_free_dec k) as [Q | Q].
      * destruct (order_free_dec v) as [R | R]; [tauto |]. destruct (Hv Dv R) as (v' & H1 & H2). exists (MdMap [(k, v')]). split; [| cbn [md_item map]; congruence].
        apply mp_map with [(k, v')]; [| constructor; constructor]. constructor; [split; [constructor | exact H1] | constructor].
      * destruct (Hk Dk Q) as (k' & H1 & H2). exists (MdMap [(k', v)]). split; [| cbn [md_item map]; congruence].
        apply mp_map with [(k', v)]; [| constructor; constructor]. constructor; [split; [exact H1 | constructor] | constructor].
    + destruct D as [D _]. cbn [map fst] in D. inversion D as [| ? ? N _]; subst. exists (MdMap ((k2, v2) :: (k, v) :: l)). split.
      * apply mp_map with ((k, v) :: (k2, v2) :: l); [| constructor]. clear. induction ((k, v) :: (k2, v2) :: l); constructor; auto. split; constructor.
      * cbn [md_item map]. intros E. apply N. left. congruence.
  - cbn [order_free distinct_keys] in *. rewrite fold_right_pair_Forall in F, D.
    assert (G : exists l', Forall2 (fun p q => md_perm (fst p) (fst q) /\ md_perm (snd p) (snd q)) l l' /\ map (fun '(k, v) => (md_item k, md_item v)) l' <> map (fun '(k, v) => (md_item k, md_item v)) l).
    { assert (RF : forall l, Forall2 (fun p q => md_perm (fst p) (fst q) /\ md_perm (snd p) (snd q)) l l) by (clear; induction l; constructor; auto; split; constructor).
      induction IH as [| [k v] l [Hk Hv] Hl IHl]; [destruct F; constructor |]. inversion D as [| ? ? [D1 D2] D3]; subst. cbn [fst snd] in *.
      destruct (order_free_dec k) as [Q | Q]; [destruct (order_free_dec v) as [R | R] |].
      - destruct IHl as (l' & H1 & H2); auto. exists ((k, v) :: l'). split; [constructor; [split; constructor | exact H1] |]. cbn [map]. congruence.
      - destruct (Hv D2 R) as (v' & H1 & H2). exists ((k, v') :: l). split; [| cbn [map]; congruence]. constructor; [split; [constructor | exact H1] | apply RF].
      - destruct (Hk D1 Q) as (k' & H1 & H2). exists ((k', v) :: l). split; [| cbn [map]; congruence]. constructor; [split; [exact H1 | constructor] | apply RF]. }
    destruct G as (l' & H1 & H2). exists (MdStruct l'). split; [constructor; exact H1 |]. cbn [md_item]. congruence.
  - cbn [order_free distinct_keys] in *. destruct (IH D F) as (v' & H1 & H2). exists (MdTag t v'). split; [constructor; exact H1 |]. cbn [md_item]. congruence.
Qed.

(** A run of Go in which marshalling number 0, 2, ... meets the entries as listed and number 1, 3, ... meets m in the order of m'. *)
Definition other_order (m m' : md) : MapOrder :=
  {| map_order := fun n x => if Nat.even n then x else if md_eq_dec x m then m' else x |}.
Lemma other_order_runtime m m' : md_perm m m' -> @runtime_order (other_order m m').
Proof. intros P n x. cbn. destruct (Nat.even n); [constructor |]. destruct (md_eq_dec x m) as [-> |]; [exact P | constructor]. Qed.
Lemma other_order_even m m' n : Nat.even n = true -> @map_order (other_order m m') n m = m.
Proof. intros E. cbn. rewrite E. reflexivity. Qed.
Lemma other_order_odd m m' n : Nat.even n = false -> @map_order (other_order m m') n m = m'.
Proof. intros E. cbn. rewrite E. destruct (md_eq_dec m m); congruence. Qed.
