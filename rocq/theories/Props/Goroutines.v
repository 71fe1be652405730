(** C116: any number of goroutines, each with calls of its own. *)
From Verif.Model Require Import Base Cbor Address Tx Builder Concurrent Goroutines.
From Verif.Spec Require Import World RaceSpec RegionSpec.
From Verif.Proofs Require Import Util HeapFacts HeapProps ConcurrentFacts.
From Verif.Props Require Import Tx Builder Concurrent.

(** ** Programs that stay within a part of the memory *)
Definition agree_on (P : loc -> Prop) (m m' : mem) : Prop := forall l, P l -> m l = m' l.
Lemma agree_set P m m' l v : agree_on P m m' -> agree_on P (set m l v) (set m' l v).
Proof. intros H l' K. destruct (loc_eq_dec l l') as [E | E]; [subst; rewrite !set_same; reflexivity |]. rewrite !set_other by congruence. apply H. exact K. Qed.
Lemma within_agree {A} (P : loc -> Prop) (p : prog A) : forall m m', within P p m -> agree_on P m m' ->
  within P p m' /\ answer p m = answer p m' /\ agree_on P (final p m) (final p m').
Proof.
  induction p as [a | l k IH | l v p IH]; intros m m' H G.
  - split; [apply within_ret | split; [reflexivity | exact G]].
  - assert (L : P l) by (apply (H (R l)); left; reflexivity). destruct (IH (m l) m m') as (I1 & I2 & I3); [intros x X; apply H; right; exact X | exact G |].
    split; [apply within_rd; [exact L | rewrite <- (G l L); exact I1] |]. cbn [answer final]. rewrite <- (G l L). auto.
  - assert (L : P l) by (apply (H (W l)); left; reflexivity). destruct (IH (set m l v) (set m' l v)) as (I1 & I2 & I3); [intros x X; apply H; right; exact X | apply agree_set; exact G |].
    split; [apply within_wr; [exact L | exact I1] | auto].
Qed.
Lemma within_frame {A} (P : loc -> Prop) (p : prog A) : forall m l, within P p m -> ~ P l -> final p m l = m l.
Proof.
  induction p as [a | l' k IH | l' v p IH]; intros m l H N; cbn [final]; [reflexivity | |].
  - apply IH; [| exact N]. intros x X. apply H. right. exact X.
  - rewrite IH; [| intros x X; apply H; right; exact X | exact N]. apply set_other. intros E. subst. apply N. apply (H (W l)). left. reflexivity.
Qed.

(** Goroutines that keep to disjoint parts: each returns what it returns alone, and leaves in its part what it leaves there alone. *)
Theorem runs_apart {A} (ps : list (prog A)) m rs m' : runs ps m rs m' -> forall Ps : list (loc -> Prop), length Ps = length ps ->
  (forall i P p, nth_error Ps i = Some P -> nth_error ps i = Some p -> within P p m) ->
  (forall i j P Q, nth_error Ps i = Some P -> nth_error Ps j = Some Q -> i <> j -> forall l, P l -> ~ Q l) ->
  length rs = length ps /\
  (forall i P p, nth_error Ps i = Some P -> nth_error ps i = Some p -> nth_error rs i = Some (answer p m) /\ agree_on P m' (final p m)) /\
  (forall l, (forall i P, nth_error Ps i = Some P -> ~ P l) -> m' l = m l).
Proof.
  intros H. induction H as [rs m | ps qs l k m rs m' H IH | ps qs l v p m rs m' H IH]; intros Ps L Wi D.
  - split; [rewrite map_length; reflexivity |]. split; [| reflexivity]. intros i P p EP Ep. rewrite nth_error_map in Ep. destruct (nth_error rs i) as [r |]; [| discriminate Ep]. injection Ep as <-. split; [reflexivity |]. intros x _. reflexivity.
  - rewrite app_length in L. cbn [length] in L. destruct (IH Ps) as (I1 & I2 & I3).
    + rewrite app_length. cbn [length]. lia.
    + intros i P q EP Eq. destruct (lt_eq_lt_dec i (length ps)) as [[Li | ->] | Li].
      * apply (Wi i P); [exact EP |]. rewrite nth_error_app1 in * by exact Li. exact Eq.
      * rewrite nth_error_app2, Nat.sub_diag in Eq by lia. injection Eq as <-. intros x X. apply (Wi (length ps) P (Rd l k) EP); [rewrite nth_error_app2, Nat.sub_diag by lia; reflexivity | right; exact X].
      * apply (Wi i P); [exact EP |]. rewrite nth_error_app2 in * by lia. destruct (i - length ps)%nat eqn:E; [lia | exact Eq].
    + exact D.
    + rewrite app_length in *. cbn [length] in *. split; [exact I1 |]. split; [| exact I3]. intros i P q EP Eq. destruct (lt_eq_lt_dec i (length ps)) as [[Li | ->] | Li].
      * apply I2; [exact EP |]. rewrite nth_error_app1 in * by exact Li. exact Eq.
      * rewrite nth_error_app2, Nat.sub_diag in Eq by lia. injection Eq as <-. apply (I2 (length ps) P (k (m l)) EP). rewrite nth_error_app2, Nat.sub_diag by lia. reflexivity.
      * apply I2; [exact EP |]. rewrite nth_error_app2 in * by lia. destruct (i - length ps)%nat eqn:E; [lia | exact Eq].
  - rewrite app_length in L. cbn [length] in L. destruct (nth_error Ps (length ps)) as [P0 |] eqn:E0; [| apply nth_error_None in E0; lia].
    assert (W0 : within P0 (Wr l v p) m) by (apply (Wi (length ps) P0); [exact E0 | rewrite nth_error_app2, Nat.sub_diag by lia; reflexivity]). assert (L0 : P0 l) by (apply (W0 (W l)); left; reflexivity).
    assert (G : forall i P, nth_error Ps i = Some P -> i <> length ps -> agree_on P m (set m l v)).
    { intros i P EP Ni x Px. symmetry. apply set_other. intros E. subst x. exact (D (length ps) i P0 P E0 EP (not_eq_sym Ni) l L0 Px). }
    destruct (IH Ps) as (I1 & I2 & I3).
    + rewrite app_length. cbn [length]. lia.
    + intros i P q EP Eq. destruct (lt_eq_lt_dec i (length ps)) as [[Li | ->] | Li].
      * apply (within_agree P q m); [| apply (G i); [exact EP | lia]]. apply (Wi i P); [exact EP |]. rewrite nth_error_app1 in * by exact Li. exact Eq.
      * rewrite nth_error_app2, Nat.sub_diag in Eq by lia. injection Eq as <-. rewrite E0 in EP. injection EP as <-. intros x X. apply W0. right. exact X.
      * apply (within_agree P q m); [| apply (G i); [exact EP | lia]]. apply (Wi i P); [exact EP |]. rewrite nth_error_app2 in * by lia. destruct (i - length ps)%nat eqn:E; [lia | exact Eq].
    + exact D.
    + rewrite app_length in *. cbn [length] in *. split; [exact I1 |]. split.
      * intros i P q EP Eq. destruct (lt_eq_lt_dec i (length ps)) as [[Li | ->] | Li].
        -- assert (Eq' : nth_error (ps ++ p :: qs) i = Some q) by (rewrite nth_error_app1 in * by exact Li; exact Eq). destruct (I2 i P q EP Eq') as [J1 J2].
           destruct (within_agree P q m (set m l v) (Wi i P q EP Eq) (G i P EP ltac:(lia))) as (_ & K2 & K3). split; [rewrite K2; exact J1 |]. intros x Px. rewrite (J2 x Px). symmetry. apply K3. exact Px.
        -- rewrite nth_error_app2, Nat.sub_diag in Eq by lia. injection Eq as <-. apply (I2 (length ps) P p EP). rewrite nth_error_app2, Nat.sub_diag by lia. reflexivity.
        -- assert (Eq' : nth_error (ps ++ p :: qs) i = Some q) by (rewrite nth_error_app2 in * by lia; destruct (i - length ps)%nat eqn:E; [lia | exact Eq]). destruct (I2 i P q EP Eq') as [J1 J2].
           destruct (within_agree P q m (set m l v) (Wi i P q EP Eq) (G i P EP ltac:(lia))) as (_ & K2 & K3). split; [rewrite K2; exact J1 |]. intros x Px. rewrite (J2 x Px). symmetry. apply K3. exact Px.
      * intros x N. rewrite (I3 x N). apply set_other. intros E. subst x. exact (N _ P0 E0 L0).
Qed.

(** ** Calls stay within a closed region *)
Section Safe.
Context {C : TxCrypto} {MO : MapOrder}.
Variable D : region.
Definition fits (l : loc) : val l -> Prop :=
  match l with
  | LBTx _ => fun t => r_tx D t
  | LBKeys _ => fun s => r_array D (s_arr s)
  | LTBody _ => fun b => r_body D b
  | LTWit _ => fun x => r_wit D x
  | _ => fun _ => True
  end.
Lemma closed_fits m l : closed D m -> inside D l -> fits l (m l).
Proof. intros [H1 H2] K. destruct l; cbn [inside fits] in *; try exact Logic.I; first [apply H1; exact K | apply H2; exact K]. Qed.
Lemma closed_set m l v : closed D m -> fits l v -> closed D (set m l v).
Proof.
  intros [H1 H2] K. split.
  - intros b Hb. destruct (H1 b Hb) as [A1 A2]. split.
    + destruct (loc_eq_dec l (LBTx b)) as [E | E]; [subst; rewrite set_same; exact K |]. rewrite set_other by exact E. exact A1.
    + destruct (loc_eq_dec l (LBKeys b)) as [E | E]; [subst; rewrite set_same; exact K |]. rewrite set_other by exact E. exact A2.
  - intros t Ht. destruct (H2 t Ht) as [A1 A2]. split.
    + destruct (loc_eq_dec l (LTBody t)) as [E | E]; [subst; rewrite set_same; exact K |]. rewrite set_other by exact E. exact A1.
    + destruct (loc_eq_dec l (LTWit t)) as [E | E]; [subst; rewrite set_same; exact K |]. rewrite set_other by exact E. exact A2.
Qed.
Definition safe {A} (p : prog A) : Prop := forall m, closed D m -> within (inside D) p m /\ closed D (final p m).
Lemma safe_ret {A} (a : A) : safe (Ret a). Proof. intros m H. split; [apply within_ret | exact H]. Qed.
Lemma safe_rd {A} l (k : val l -> prog A) : inside D l -> (forall v, fits l v -> safe (k v)) -> safe (Rd l k).
Proof. intros K H m Cm. destruct (H (m l) (closed_fits m l Cm K) m Cm) as [H1 H2]. split; [apply within_rd; assumption | exact H2]. Qed.
Lemma safe_wr {A} l v (p : prog A) : inside D l -> fits l v -> safe p -> safe (Wr l v p).
Proof. intros K F H m Cm. destruct (H (set m l v) (closed_set m l v Cm F)) as [H1 H2]. split; [apply within_wr; assumption | exact H2]. Qed.
Lemma safe_seq {A B} (p : prog A) (f : A -> prog B) : safe p -> (forall a, safe (f a)) -> safe (seq_prog p f).
Proof. intros H K m Cm. destruct (H m Cm) as [H1 H2]. destruct (K (answer p m) (final p m) H2) as [K1 K2]. split; [apply within_seq; assumption | rewrite final_seq; exact K2]. Qed.

Ltac go := repeat first
  [ apply safe_ret
  | apply safe_rd; [assumption | intros; cbn [fits] in *]
  | apply safe_wr; [assumption | first [exact Logic.I | assumption] |]
  | apply safe_seq; [| intros] ].
Lemma safe_read_keys a : r_array D a -> forall n i, safe (read_keys a i n).
Proof. intros H. induction n as [| n IH]; intros i; cbn [read_keys]; [go |]. apply safe_rd; [exact H | intros]. apply safe_seq; [apply IH | intros; go]. Qed.
Lemma safe_write_keys a : r_array D a -> forall l i, safe (write_keys a i l).
Proof. intros H. induction l as [| k l IH]; intros i; cbn [write_keys]; [go |]. apply safe_wr; [exact H | exact Logic.I | apply IH]. Qed.
Lemma safe_calc n t : r_tx D t -> safe (calc n t).
Proof. intros H. unfold calc. apply safe_rd; [exact H |]. intros [md |] _; [| go]. destruct (enc_md _); go. Qed.
Lemma safe_read_body b : r_body D b -> safe (read_body b).
Proof. intros H. unfold read_body. go. Qed.
Lemma safe_marshal n t : r_tx D t -> safe (marshal n t).
Proof. intros H. unfold marshal. apply safe_rd; [exact H |]. intros b Hb. cbn [fits] in Hb. apply safe_seq; [apply safe_read_body; exact Hb |]. intros body. go. Qed.
Lemma safe_hash n t : r_tx D t -> safe (hash_call n t).
Proof. intros H. unfold hash_call. apply safe_seq; [apply safe_calc; exact H |]. intros [u | e |]; [| go | go]. apply safe_rd; [exact H |]. intros b Hb. apply safe_seq; [apply safe_read_body; exact Hb | intros; go]. Qed.
Lemma safe_min_fee n room b : r_builder D b -> safe (min_fee_call n room b).
Proof.
  intros H. unfold min_fee_call. apply safe_rd; [exact H |]. intros t Ht. cbn [fits] in Ht. apply safe_rd; [exact Ht |]. intros bd Hb. cbn [fits] in Hb. do 4 (apply safe_rd; [exact Hb | intros]).
  apply safe_rd; [exact Ht |]. intros x Hx. cbn [fits] in Hx. apply safe_rd; [exact Ht | intros]. apply safe_rd; [exact Hx |]. intros ws _. apply safe_rd; [exact H | intros]. cbv zeta. destruct ws; destruct (room && _); go.
Qed.
Lemma safe_add_outputs room t l : r_tx D t -> safe (add_outputs_call room t l).
Proof. intros H. unfold add_outputs_call. apply safe_rd; [exact H |]. intros b Hb. cbn [fits] in Hb. destruct room; go. Qed.
Lemma safe_call e o : env_inside D e -> op_inside D o -> safe (call e o).
Proof.
  intros (E1 & E2 & E3 & E4 & E5) H. destruct o; cbn [op_inside call] in *.
  - apply safe_seq; [apply safe_write_keys; exact E5 |]. intros. go.
  - apply safe_seq; [| intros; go]. unfold new_builder_call. go.
  - apply safe_seq; [| intros; go]. unfold sign_call. apply safe_rd; [exact H |]. intros s Hs. cbn [fits] in Hs. apply safe_rd; [exact Hs |]. intros c _. destruct (_ <? _)%nat; [go |].
    apply safe_seq; [apply safe_read_keys; exact Hs |]. intros ks. apply safe_seq; [apply safe_write_keys; exact E5 |]. intros. go.
  - apply safe_seq; [| intros; go]. unfold add_inputs_call. go.
  - apply safe_seq; [| intros; go]. apply safe_add_outputs; exact H.
  - apply safe_seq; [| intros; go]. unfold set_fee_call. go.
  - go.
  - go.
  - apply safe_seq; [| intros; go]. unfold bytes_call. apply safe_seq; [apply safe_calc; exact H |]. intros [u | er |]; [apply safe_marshal; exact H | go | go].
  - apply safe_seq; [| intros; go]. apply safe_hash; exact H.
  - apply safe_seq; [| intros; go]. unfold fee_call. apply safe_seq; [apply safe_calc; exact H |]. intros [u | er |]; [apply safe_seq; [apply safe_marshal; exact H | intros; go] | go | go].
  - apply safe_seq; [| intros; go]. apply safe_min_fee; exact H.
  - apply safe_seq; [| intros; go]. unfold add_change_call. apply safe_seq; [apply safe_min_fee; exact H |]. intros f. apply safe_rd; [exact H |]. intros t Ht. cbn [fits] in Ht.
    apply safe_rd; [exact Ht |]. intros bd Hb. cbn [fits] in Hb. apply safe_wr; [exact Hb | exact Logic.I |]. apply safe_rd; [exact Hb | intros]. apply safe_rd; [exact Hb | intros]. apply safe_add_outputs; exact Ht.
  - apply safe_seq; [| intros; go]. unfold build_call. apply safe_rd; [exact H |]. intros t Ht. cbn [fits] in Ht. apply safe_seq; [apply safe_hash; exact Ht |]. intros [h | er |]; [| go | go].
    apply safe_rd; [exact H |]. intros s Hs. cbn [fits] in Hs. apply safe_seq; [apply safe_read_keys; exact Hs |]. intros ks. destruct (sign_all _ _); go.
Qed.
Lemma safe_calls l : Forall (fun c => env_inside D (fst c) /\ op_inside D (snd c)) l -> safe (calls l).
Proof.
  induction 1 as [| [e o] l [E O] _ IH]; cbn [calls]; [go |]. apply safe_seq; [apply safe_call; assumption |]. intros r. apply safe_seq; [exact IH | intros; go].
Qed.
End Safe.

(** Any number of goroutines, each making any calls on builders and transactions of its own: however their accesses interleave, each
    gets the replies and leaves the memory it would alone, and nothing else changes. *)
Theorem C116_goroutines : forall (C : TxCrypto) (MO : MapOrder) (gs : list (region * list (env * op))) m rs m',
  (forall i D l, nth_error gs i = Some (D, l) -> closed D m /\ Forall (fun c => env_inside D (fst c) /\ op_inside D (snd c)) l) ->
  (forall i j D l D' l', nth_error gs i = Some (D, l) -> nth_error gs j = Some (D', l') -> i <> j -> disjoint D D') ->
  runs (map (fun g => calls (snd g)) gs) m rs m' ->
  length rs = length gs /\
  (forall i D l, nth_error gs i = Some (D, l) -> nth_error rs i = Some (answer (calls l) m) /\ forall x, inside D x -> m' x = final (calls l) m x) /\
  (forall x, (forall i D l, nth_error gs i = Some (D, l) -> ~ inside D x) -> m' x = m x).
Proof.
  intros C MO gs m rs m' H DJ R0. destruct (runs_apart _ _ _ _ R0 (map (fun g => inside (fst g)) gs)) as (I1 & I2 & I3).
  - rewrite !map_length. reflexivity.
  - intros i P p EP Ep. rewrite nth_error_map in EP, Ep. destruct (nth_error gs i) as [[D l] |] eqn:E; [| discriminate EP]. cbn [option_map fst snd] in *. injection EP as <-. injection Ep as <-.
    destruct (H i D l E) as [Cl F]. apply (safe_calls D l F m Cl).
  - intros i j P Q EP EQ Nij x Px Qx. rewrite nth_error_map in EP, EQ. destruct (nth_error gs i) as [[D l] |] eqn:E; [| discriminate EP]. destruct (nth_error gs j) as [[D' l'] |] eqn:E'; [| discriminate EQ]. cbn [option_map fst] in *. injection EP as <-. injection EQ as <-.
    destruct (DJ i j D l D' l' E E' Nij) as (J1 & J2 & J3 & J4 & J5). destruct x; cbn [inside] in *; first [exact (J1 _ (conj Px Qx)) | exact (J2 _ (conj Px Qx)) | exact (J3 _ (conj Px Qx)) | exact (J4 _ (conj Px Qx)) | exact (J5 _ (conj Px Qx))].
  - rewrite map_length in I1. split; [exact I1 |]. split.
    + intros i D l E. apply (I2 i (inside D) (calls l)); rewrite nth_error_map, E; reflexivity.
    + intros x N. apply I3. intros i P EP. rewrite nth_error_map in EP. destruct (nth_error gs i) as [[D l] |] eqn:E; [| discriminate EP]. injection EP as <-. exact (N i D l E).
Qed.
Print Assumptions C116_goroutines.

(** From any state a program can reach: goroutines that share no builder. *)
Theorem C116_program : forall (C : TxCrypto) (MO : MapOrder) w (gs : list ((nat -> Prop) * (nat -> Prop) * list (env * op))) rs m', reachable w -> unshared w ->
  (forall i B F l, nth_error gs i = Some (B, F, l) -> unused w F /\ Forall (fun c => env_inside (region_of w B F) (fst c) /\ op_inside (region_of w B F) (snd c)) l) ->
  (forall i j B F l B' F' l', nth_error gs i = Some (B, F, l) -> nth_error gs j = Some (B', F', l') -> i <> j -> (forall b, ~ (B b /\ B' b)) /\ (forall n, ~ (F n /\ F' n))) ->
  runs (map (fun g => calls (snd g)) gs) (start w) rs m' ->
  length rs = length gs /\
  (forall i B F l, nth_error gs i = Some (B, F, l) -> nth_error rs i = Some (answer (calls l) (start w)) /\
     forall x, inside (region_of w B F) x -> m' x = final (calls l) (start w) x).
Proof.
  intros C MO w gs rs m' Rw U H DJ RN. pose proof (reachable_inv w Rw) as I.
  destruct (C116_goroutines C MO (map (fun g => (region_of w (fst (fst g)) (snd (fst g)), snd g)) gs) (start w) rs m') as (I1 & I2 & _).
  - intros i D l E. rewrite nth_error_map in E. destruct (nth_error gs i) as [[[B F] l0] |] eqn:Ei; [| discriminate E]. cbn [option_map fst snd] in E. injection E as <- <-. destruct (H i B F l0 Ei) as [HF HL]. split; [| exact HL].
    split.
    + intros b [[Lb Hb] | Hb]; cbn [start region_of r_tx r_array].
      * destruct (Nat.ltb_spec b (length (w_builders w))); [| lia]. destruct (inv_builders w I b Lb) as (Ht & Eb & _). split; [left; rewrite Eb; auto | left; exists b; auto].
      * destruct (HF b Hb) as (F1 & _). destruct (Nat.ltb_spec b (length (w_builders w))); [lia |]. split; right; exact Hb.
    + intros t [[Lt Ht] | Ht]; cbn [start region_of r_body r_wit].
      * destruct (Nat.ltb_spec t (length (w_txs w))); [| lia]. destruct (inv_txs w I t Lt) as [Hb _]. split; [left; split; [rewrite <- (inv_bodies w I); exact Hb | exact Ht] | left; exists t; auto].
      * destruct (HF t Ht) as (_ & F2 & _). destruct (Nat.ltb_spec t (length (w_txs w))); [lia |]. split; right; exact Ht.
  - intros i j D l D' l' E E' Nij. rewrite nth_error_map in E, E'. destruct (nth_error gs i) as [[[B F] l0] |] eqn:Ei; [| discriminate E]. destruct (nth_error gs j) as [[[B' F'] l0'] |] eqn:Ej; [| discriminate E'].
    cbn [option_map fst snd] in *. injection E as <- <-. injection E' as <- <-. destruct (DJ i j B F l0 B' F' l0' Ei Ej Nij) as [DB DF]. destruct (H i B F l0 Ei) as [HF _]. destruct (H j B' F' l0' Ej) as [HF' _].
    unfold disjoint. cbn [region_of r_builder r_tx r_body r_wit r_array]. repeat split; intros x [X X'].
    + destruct X as [[L0 X] | X], X' as [[L0' X'] | X']; [exact (DB x (conj X X')) | destruct (HF' x X'); lia | destruct (HF x X); lia | exact (DF x (conj X X'))].
    + destruct X as [[L0 X] | X], X' as [[L0' X'] | X']; [exact (DB _ (conj X X')) | destruct (HF' x X') as (_ & ? & _); lia | destruct (HF x X) as (_ & ? & _); lia | exact (DF x (conj X X'))].
    + destruct X as [[L0 X] | X], X' as [[L0' X'] | X']; [exact (DB x (conj X X')) | destruct (HF' x X'); lia | destruct (HF x X); lia | exact (DF x (conj X X'))].
    + destruct X as [(t & [Lt X] & Et) | X], X' as [(t' & [Lt' X'] & Et') | X'].
      * rewrite (inv_wits w I t t' Lt Lt' ltac:(congruence)) in X. exact (DB _ (conj X X')).
      * destruct (inv_txs w I t Lt). destruct (HF' x X') as (_ & _ & _ & ? & _). lia.
      * destruct (inv_txs w I t' Lt'). destruct (HF x X) as (_ & _ & _ & ? & _). lia.
      * exact (DF x (conj X X')).
    + destruct X as [(b & Lb & X & Eb) | X], X' as [(b' & Lb' & X' & Eb') | X'].
      * destruct (Nat.eq_dec b b') as [<- | NE]; [exact (DB b (conj X X')) | exact (U b b' Lb Lb' NE ltac:(congruence))].
      * destruct (inv_builders w I b Lb) as (_ & _ & [SA _]). destruct (HF' x X') as (_ & _ & _ & _ & ?). lia.
      * destruct (inv_builders w I b' Lb') as (_ & _ & [SA _]). destruct (HF x X) as (_ & _ & _ & _ & ?). lia.
      * exact (DF x (conj X X')).
  - rewrite map_map. exact RN.
  - rewrite map_length in I1. split; [exact I1 |]. intros i B F l E. apply (I2 i (region_of w B F) l). rewrite nth_error_map, E. reflexivity.
Qed.
Print Assumptions C116_program.

(** Such executions exist: one goroutine after the other is one. *)
Lemma runs_exists {A} (ps : list (prog A)) : forall m, exists rs m', runs ps m rs m'.
Proof.
  assert (G : forall (qs : list (prog A)) done m, exists rs m', runs (map Ret done ++ qs) m rs m').
  { induction qs as [| p qs IH]; intros dn m.
    - rewrite app_nil_r. exists dn, m. constructor.
    - revert m. induction p as [a | l k IHk | l v p IHp]; intros m.
      + destruct (IH (dn ++ [a]) m) as (rs & m' & H). rewrite map_app, <- app_assoc in H. exists rs, m'. exact H.
      + destruct (IHk (m l) m) as (rs & m' & H). exists rs, m'. apply runs_rd. exact H.
      + destruct (IHp (set m l v)) as (rs & m' & H). exists rs, m'. apply runs_wr. exact H. }
  intros m. exact (G ps [] m).
Qed.
Section Ex116g.
#[local] Existing Instance ex_crypto.
#[local] Existing Instance id_order.
(** Two goroutines: one asks for the fee of the first builder, adds change and builds; the other creates a key slice and a builder, and
    serialises the second transaction, which has metadata. *)
Definition C116_parts : list ((nat -> Prop) * (nat -> Prop) * list (env * op)) :=
  [(fun b => b = 0%nat, fun n => (2 <= n)%nat /\ Nat.Even n, [(C116_env 2, OMinFee 0); (C116_env 4, OAddChange 0 ex_addr); (C116_env 6, OBuild 0)]);
   (fun b => b = 1%nat, fun n => (2 <= n)%nat /\ Nat.Odd n, [(C116_env 3, OMakeKeys ex_keys 0); (C116_env 5, ONewBuilder ex_fees {| s_arr := 3; s_off := 0; s_len := 2 |}); (C116_env 7, OSign 5 (repeat 9 96)); (C116_env 9, OBytes 1)])].
Example C116_parts_example :
  reachable C116_world /\ unshared C116_world /\
  (forall i B F l, nth_error C116_parts i = Some (B, F, l) -> unused C116_world F /\ Forall (fun c => env_inside (region_of C116_world B F) (fst c) /\ op_inside (region_of C116_world B F) (snd c)) l) /\
  (forall i j B F l B' F' l', nth_error C116_parts i = Some (B, F, l) -> nth_error C116_parts j = Some (B', F', l') -> i <> j -> (forall b, ~ (B b /\ B' b)) /\ (forall n, ~ (F n /\ F' n))) /\
  exists rs m', runs (map (fun g => calls (snd g)) C116_parts) (start C116_world) rs m'.
Proof.
  destruct C116_example as (Rw & U & _). split; [exact Rw |]. split; [exact U |]. split; [| split; [| apply runs_exists]].
  - assert (L : length (w_builders C116_world) = 2%nat /\ length (w_txs C116_world) = 2%nat /\ length (w_bodies C116_world) = 2%nat /\ length (w_wits C116_world) = 2%nat /\ length (w_arrays C116_world) = 2%nat /\ o_body (obj C116_world 1) = 1%nat) by (vm_compute; repeat split).
    clear Rw U. set (w := C116_world) in *. clearbody w. destruct L as (L1 & L2 & L3 & L4 & L5 & L6).
    assert (EV : forall n, Nat.even n = true -> Nat.Even n) by (intros n; apply Nat.even_spec). assert (OD : forall n, Nat.odd n = true -> Nat.Odd n) by (intros n; apply Nat.odd_spec).
    intros i B F l E. destruct i as [| [| i]]; [| | destruct i; discriminate E]; injection E as <- <- <-; (split; [intros n [L _]; rewrite L1, L2, L3, L4, L5; lia |]); repeat (apply Forall_cons; [| try apply Forall_nil]);
      unfold env_inside; cbn [fst snd op_inside region_of r_builder r_tx r_body r_wit r_array C116_env e_builder e_tx e_body e_wit e_array s_arr];
      repeat (match goal with |- _ /\ _ => split end); try exact Logic.I;
      try (right; split; [lia | first [apply EV; reflexivity | apply OD; reflexivity]]); left; split; rewrite ?L1, ?L2, ?L6; auto; lia.
  - intros i j B F l B' F' l' E E' N. assert (X : forall n, ~ (((2 <= n)%nat /\ Nat.Even n) /\ (2 <= n)%nat /\ Nat.Odd n)) by (intros n ((_ & E1) & (_ & E2)); exact (Nat.Even_Odd_False n E1 E2)).
    destruct i as [| [| i]]; [| | destruct i; discriminate E]; destruct j as [| [| j]]; try (destruct j; discriminate E'); try (exfalso; apply N; reflexivity); injection E as <- <- <-; injection E' as <- <- <-; (split; [intros b [-> Q]; discriminate Q |]).
    + exact X.
    + intros n [P Q]. exact (X n (conj Q P)).
Qed.
End Ex116g.

(** What a goroutine does alone: its calls one after the other, with one reply for each. *)
Theorem C116_sequence : forall (C : TxCrypto) (MO : MapOrder) l m,
  answer (calls l) m = snd (fold_left (fun s c => (final (call (fst c) (snd c)) (fst s), snd s ++ [answer (call (fst c) (snd c)) (fst s)])) l (m, [])) /\
  final (calls l) m = fold_left (fun m c => final (call (fst c) (snd c)) m) l m /\ length (answer (calls l) m) = length l.
Proof.
  intros C MO l. assert (G : forall l m rs, rs ++ answer (calls l) m = snd (fold_left (fun s c => (final (call (fst c) (snd c)) (fst s), snd s ++ [answer (call (fst c) (snd c)) (fst s)])) l (m, rs)) /\
    final (calls l) m = fold_left (fun m c => final (call (fst c) (snd c)) m) l m /\ length (answer (calls l) m) = length l).
  { clear l. induction l as [| [e o] l IH]; intros m rs; [split; [apply app_nil_r | split; reflexivity] |].
    cbn [calls fold_left fst snd length]. rewrite !answer_seq, !final_seq. cbn [answer final]. cbn [length].
    destruct (IH (final (call e o) m) (rs ++ [answer (call e o) m])) as (I1 & I2 & I3). split; [rewrite <- I1, <- app_assoc; reflexivity |]. split; [exact I2 | rewrite I3; reflexivity]. }
  intros m. exact (G l m []).
Qed.
Print Assumptions C116_sequence.
Section Ex116s.
#[local] Existing Instance ex_crypto.
#[local] Existing Instance id_order.
(** The first goroutine of [C116_parts]: the second call sees what the first one left. *)
Example C116_sequence_example :
  map (fun r => match r with MinFeeReply f => f | BuildReply (Ok t) => Z.of_nat t | _ => -1 end) (answer (calls [(C116_env 2, OMinFee 0); (C116_env 4, OAddChange 0 ex_addr); (C116_env 6, OBuild 0)]) (start C116_world))
  = [snd (run_min_fee C116_world 0); -1; 6].
Proof. vm_compute. reflexivity. Qed.
End Ex116s.
