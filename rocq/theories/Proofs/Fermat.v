(** Fermat's little theorem, fast modular powers and Pocklington's criterion. *)
From Coq Require Import ZArith Znumtheory List Permutation Lia Bool.
Import ListNotations. Open Scope Z_scope.

(** ** Fermat *)
Definition residues (p : Z) : list Z := map Z.of_nat (seq 1 (Z.to_nat (p - 1))).
Definition prod (l : list Z) : Z := fold_right Z.mul 1 l.

Lemma residues_in p x : In x (residues p) <-> 1 <= x < p.
Proof.
  unfold residues. rewrite in_map_iff. split.
  - intros (n & <- & H). apply in_seq in H. lia.
  - intros H. exists (Z.to_nat x). split; [lia |]. apply in_seq. lia.
Qed.
Lemma residues_nodup p : NoDup (residues p).
Proof. apply FinFun.Injective_map_NoDup; [intros a b; lia | apply seq_NoDup]. Qed.
Lemma prod_perm a b : Permutation a b -> prod a = prod b.
Proof. unfold prod. induction 1; cbn [fold_right]; lia. Qed.
Lemma prod_map_mod a p l : p <> 0 -> prod (map (fun x => (a * x) mod p) l) mod p = (a ^ Z.of_nat (length l) * prod l) mod p.
Proof.
  intros Hp. induction l as [| x l IH]; [reflexivity |]. cbn [map length]. unfold prod in *. cbn [fold_right].
  rewrite Nat2Z.inj_succ, Z.pow_succ_r by lia. rewrite <- Z.mul_mod_idemp_r, IH, Z.mul_mod_idemp_r, Z.mul_mod_idemp_l by auto. f_equal. ring.
Qed.
Lemma prod_prime p l : prime p -> (forall x, In x l -> ~ (p | x)) -> ~ (p | prod l).
Proof.
  intros P. induction l as [| x l IH]; intros H D; unfold prod in *; cbn [fold_right] in D.
  - pose proof (prime_ge_2 p P). apply Z.divide_1_r_nonneg in D; lia.
  - apply prime_mult in D; [| auto]. destruct D as [D | D]; [apply (H x) in D; auto; left; auto | apply IH in D; auto]. intros; apply H; right; auto.
Qed.

Theorem fermat : forall p a, prime p -> ~ (p | a) -> a ^ (p - 1) mod p = 1.
Proof.
  intros p a P D. pose proof (prime_ge_2 p P) as P2.
  set (l := residues p). set (f := fun x => (a * x) mod p).
  assert (I : forall x, In x l -> ~ (p | x)) by (intros x Hx Q; apply residues_in in Hx; apply Z.divide_pos_le in Q; lia).
  assert (U : forall x y, In x l -> In y l -> f x = f y -> x = y).
  { intros x y Hx Hy E. unfold f in E. assert (Q : (p | a * (x - y))).
    { apply Z.mod_divide; [lia |]. replace (a * (x - y)) with (a * x - a * y) by ring. rewrite Zminus_mod, E, Z.sub_diag. apply Z.mod_0_l. lia. }
    apply prime_mult in Q; [| auto]. destruct Q as [Q | Q]; [contradiction |]. apply residues_in in Hx, Hy.
    destruct (Z.eq_dec x y) as [| N]; [auto |]. exfalso. destruct (Z.lt_ge_cases x y).
    - assert (Q' : (p | y - x)) by (replace (y - x) with (- (x - y)) by ring; apply Z.divide_opp_r; auto). apply Z.divide_pos_le in Q'; lia.
    - apply Z.divide_pos_le in Q; lia. }
  assert (M : Permutation (map f l) l).
  { apply NoDup_Permutation_bis.
    - assert (G : forall k, (forall x, In x k -> In x l) -> NoDup k -> NoDup (map f k)).
      { induction k as [| x k IH]; intros S N; [constructor |]. inversion N; subst. cbn [map]. constructor.
        - intros Q. apply in_map_iff in Q as (y & E & Hy). apply U in E; [subst; contradiction | apply S; right; auto | apply S; left; auto].
        - apply IH; auto. intros; apply S; right; auto. }
      apply G; auto. apply residues_nodup.
    - rewrite map_length. lia.
    - intros y Hy. apply in_map_iff in Hy as (x & <- & Hx). apply residues_in. unfold f. pose proof (Z.mod_pos_bound (a * x) p ltac:(lia)).
      assert ((a * x) mod p <> 0); [| lia]. intros Q. apply Z.mod_divide in Q; [| lia]. apply prime_mult in Q; [| auto]. destruct Q; [contradiction |]. apply (I x); auto. }
  pose proof (prod_map_mod a p l ltac:(lia)) as E. fold f in E. rewrite (prod_perm _ _ M) in E.
  assert (Ll : Z.of_nat (length l) = p - 1) by (unfold l, residues; rewrite map_length, seq_length; lia). rewrite Ll in E.
  assert (Q : (p | prod l * (a ^ (p - 1) - 1))).
  { apply Z.mod_divide; [lia |]. replace (prod l * (a ^ (p - 1) - 1)) with (a ^ (p - 1) * prod l - prod l) by ring. rewrite Zminus_mod, <- E, Z.sub_diag. apply Z.mod_0_l. lia. }
  apply prime_mult in Q; [| auto]. destruct Q as [Q | Q]; [apply (prod_prime p l P I) in Q; contradiction |].
  destruct Q as [k Q]. replace (a ^ (p - 1)) with (1 + k * p) by lia. rewrite Z.mod_add by lia. apply Z.mod_small. lia.
Qed.

(** ** Modular powers *)
Fixpoint powmod_pos (a : Z) (e : positive) (n : Z) : Z :=
  match e with
  | xH => a mod n
  | xO e' => let h := powmod_pos a e' n in (h * h) mod n
  | xI e' => let h := powmod_pos a e' n in (a * ((h * h) mod n)) mod n
  end.
Definition powmod (a e n : Z) : Z := match e with Zpos e' => powmod_pos a e' n | _ => 1 mod n end.
Lemma powmod_pos_eq a e n : n <> 0 -> powmod_pos a e n = a ^ Zpos e mod n.
Proof.
  intros N. induction e as [e IH | e IH |]; cbn [powmod_pos].
  - rewrite IH, <- Z.mul_mod, Z.mul_mod_idemp_r by auto. f_equal. rewrite Pos2Z.inj_xI. replace (2 * Zpos e + 1) with (1 + (Zpos e + Zpos e)) by lia.
    rewrite !Z.pow_add_r by lia. rewrite Z.pow_1_r. ring.
  - rewrite IH, <- Z.mul_mod by auto. f_equal. rewrite Pos2Z.inj_xO. replace (2 * Zpos e) with (Zpos e + Zpos e) by lia. rewrite Z.pow_add_r by lia. ring.
  - rewrite Z.pow_1_r. reflexivity.
Qed.
Lemma powmod_eq a e n : n <> 0 -> 0 <= e -> powmod a e n = a ^ e mod n.
Proof. intros N H. destruct e as [| e | e]; [reflexivity | apply powmod_pos_eq; auto | lia]. Qed.

(** ** Pocklington *)
Lemma pow_mod_eq n : n <> 0 -> forall k, 0 <= k -> forall x y, x mod n = y mod n -> x ^ k mod n = y ^ k mod n.
Proof.
  intros N k Hk x y E. revert k Hk. apply natlike_ind; [reflexivity |]. intros k Hk IH. rewrite !Z.pow_succ_r by auto. rewrite Z.mul_mod, E, IH, <- Z.mul_mod by auto. reflexivity.
Qed.
Lemma pow_mod_1 b m k r : r <> 0 -> 0 <= m -> 0 <= k -> b ^ m mod r = 1 mod r -> b ^ (m * k) mod r = 1 mod r.
Proof.
  intros R M K H. rewrite Z.pow_mul_r by auto. revert k K. apply natlike_ind; [reflexivity |]. intros k K IH.
  rewrite Z.pow_succ_r by auto. rewrite Z.mul_mod, H, IH, <- Z.mul_mod by auto. reflexivity.
Qed.
Lemma pow_coprime_1 b m n r : r <> 0 -> 0 < m -> 0 < n -> rel_prime m n -> b ^ m mod r = 1 mod r -> b ^ n mod r = 1 mod r -> b mod r = 1 mod r.
Proof.
  intros R M N C Hm Hn. destruct (rel_prime_bezout m n C) as [u v E].
  (* shift u to be non-negative *)
  set (k := Z.abs u + Z.abs v). set (u' := u + k * n). set (v' := k * m - v).
  assert (E' : u' * m = 1 + v' * n) by (unfold u', v'; nia).
  assert (k * 1 <= k * n) by (apply Z.mul_le_mono_nonneg_l; unfold k; lia). assert (k * 1 <= k * m) by (apply Z.mul_le_mono_nonneg_l; unfold k; lia).
  assert (U : 0 <= u') by (unfold u', k in *; lia). assert (V : 0 <= v') by (unfold v', k in *; lia). clearbody u' v'. clear k H H0 E.
  assert (A : b ^ (u' * m) mod r = 1 mod r) by (rewrite Z.mul_comm; apply pow_mod_1; auto; lia).
  assert (VN : 0 <= v' * n) by (apply Z.mul_nonneg_nonneg; lia). rewrite E', Z.pow_add_r, Z.pow_1_r in A by lia. assert (B : b ^ (v' * n) mod r = 1 mod r) by (rewrite Z.mul_comm; apply pow_mod_1; auto; lia).
  rewrite Z.mul_mod, B, <- Z.mul_mod, Z.mul_1_r in A by auto. exact A.
Qed.

Lemma not_div_pow r a e : prime r -> ~ (r | a) -> 0 <= e -> ~ (r | a ^ e).
Proof.
  intros R Na. revert e. apply natlike_ind.
  - intros X. pose proof (prime_ge_2 r R). apply Z.divide_1_r_nonneg in X; lia.
  - intros e G IH X. rewrite Z.pow_succ_r in X by auto. apply prime_mult in X; tauto.
Qed.
(** Powers as chains of squarings and multiplications, each followed by the subtraction of a given multiple
    of the modulus (any multiple will do), so that checking needs no division. *)
Definition chain_step (a n : Z) (re : Z * Z) (s : bool * Z) : Z * Z :=
  let (r, e) := re in let (square, q) := s in
  if square then (r * r - q * n, 2 * e) else (r * a - q * n, e + 1).
Definition chain (a n : Z) (l : list (bool * Z)) : Z * Z := fold_left (chain_step a n) l (a, 1).
Lemma chain_spec a n l : n <> 0 -> let (r, e) := chain a n l in 0 < e /\ r mod n = a ^ e mod n.
Proof.
  intros N. unfold chain. assert (G : forall r e, 0 < e -> r mod n = a ^ e mod n -> let (r', e') := fold_left (chain_step a n) l (r, e) in 0 < e' /\ r' mod n = a ^ e' mod n).
  { induction l as [| [sq q] l IH]; intros r e E R; cbn [fold_left]; [auto |]. unfold chain_step at 2. destruct sq; apply IH; try lia.
    - rewrite Zminus_mod, Z.mod_mul, Z.sub_0_r, Z.mod_mod, Z.mul_mod, R, <- Z.mul_mod by auto. f_equal. replace (2 * e) with (e + e) by lia. rewrite Z.pow_add_r by lia. reflexivity.
    - rewrite Zminus_mod, Z.mod_mul, Z.sub_0_r, Z.mod_mod, Z.mul_mod, R, <- Z.mul_mod by auto. f_equal. rewrite Z.pow_add_r, Z.pow_1_r by lia. reflexivity. }
  apply G; [lia | rewrite Z.pow_1_r; reflexivity].
Qed.
Definition chain_is (a n : Z) (l : list (bool * Z)) (r e : Z) : bool := let (r', e') := chain a n l in (r' =? r) && (e' =? e).
Lemma chain_is_eq a n l r e : n <> 0 -> chain_is a n l r e = true -> a ^ e mod n = r mod n.
Proof.
  intros N. unfold chain_is. pose proof (chain_spec a n l N) as S. destruct (chain a n l) as [r' e']. rewrite andb_true_iff, !Z.eqb_eq. intros [-> ->]. symmetry. apply S.
Qed.

(** [b] is a^((N-1)/q), and u (b - 1) + v N = 1. *)
Definition witness (N a q b u v : Z) (l : list (bool * Z)) : Prop :=
  chain_is a N l b ((N - 1) / q) = true /\ u * (b - 1) + v * N = 1 /\ (N - 1) / q * q = N - 1.
Lemma witness_div N a q b u v l r : 1 < N -> prime q -> a ^ (N - 1) mod N = 1 -> witness N a q b u v l -> prime r -> (r | N) -> (q | r - 1).
Proof.
  intros HN Q W1 W R D. destruct W as (W0 & W2 & W3). apply chain_is_eq in W0; [| lia].
  pose proof (prime_ge_2 q Q). pose proof (prime_ge_2 r R).
  set (e := (N - 1) / q) in *. assert (Eq : N - 1 = q * e) by lia.
  assert (He : 0 < e) by nia.
  assert (T : forall x y, x mod N = y mod N -> x mod r = y mod r).
  { intros x y E. destruct D as [k ->]. rewrite (Zmod_div_mod r (k * r) x), (Zmod_div_mod r (k * r) y), E; auto; try lia; exists k; auto. }
  assert (Hr : a ^ (N - 1) mod r = 1 mod r) by (apply T; rewrite W1; symmetry; apply Z.mod_small; lia).
  assert (Na : ~ (r | a)).
  { intros [k ->]. replace (N - 1) with (1 + (N - 2)) in Hr by lia. rewrite Z.pow_add_r, Z.pow_1_r in Hr by lia.
    replace (k * r * (k * r) ^ (N - 2)) with ((k * (k * r) ^ (N - 2)) * r) in Hr by ring. rewrite Z.mod_mul, Z.mod_1_l in Hr by lia. discriminate. }
  assert (Nb : ~ (r | a ^ e)) by (apply not_div_pow; auto; lia).
  destruct (Zdivide_dec q (r - 1)) as [| C]; [auto | exfalso].
  assert (C' : rel_prime q (r - 1)) by (apply prime_rel_prime; auto).
  assert (B : (a ^ e) mod r = 1 mod r).
  { apply (pow_coprime_1 (a ^ e) q (r - 1) r); try lia; auto.
    - rewrite <- Z.pow_mul_r by lia. replace (e * q) with (N - 1) by lia. exact Hr.
    - rewrite fermat by auto. symmetry. apply Z.mod_small. lia. }
  assert (X : (r | b - 1)).
  { apply Z.mod_divide; [lia |]. rewrite Zminus_mod. assert (Y : b mod r = a ^ e mod r) by (apply T; auto). rewrite Y, B, Z.sub_diag. apply Z.mod_0_l. lia. }
  assert (G : (r | 1)) by (rewrite <- W2; apply Z.divide_add_r; apply Z.divide_mul_r; auto). apply Z.divide_1_r_nonneg in G; lia.
Qed.

(** Pocklington with one or two primes of N - 1. *)
Lemma small_factor N : 1 < N -> ~ prime N -> exists r, prime r /\ (r | N) /\ r * r <= N.
Proof.
  intros HN NP. destruct (not_prime_divide N HN NP) as (k & Hk & [m Em]).
  assert (P : forall n, 1 < n -> exists r, prime r /\ (r | n)).
  { intros n. assert (n < Z.abs n + 1) as B by lia. remember (Z.abs n + 1) as b eqn:Eb. clear Eb. assert (0 <= Z.max 0 b) by lia.
    assert (B' : n < Z.max 0 b) by lia. clear B. revert n B'. generalize dependent (Z.max 0 b). clear. intros b Hb. revert b Hb. apply (natlike_ind (fun b => forall n, n < b -> 1 < n -> exists r, prime r /\ (r | n))); [intros; lia |].
    intros b _ IH n B H. destruct (prime_dec n) as [Q | Q]; [exists n; split; [auto | apply Z.divide_refl] |].
    destruct (not_prime_divide n H Q) as (k & Hk & D). destruct (IH k) as (r & R & D'); [lia | lia |]. exists r. split; [auto |]. eapply Z.divide_trans; eauto. }
  destruct (Z.le_gt_cases k m) as [L | L].
  - destruct (P k ltac:(lia)) as (r & R & D). exists r. split; [auto |]. split; [apply (Z.divide_trans _ k); auto; exists m; auto |].
    apply Z.divide_pos_le in D; [| lia]. pose proof (prime_ge_2 r R). nia.
  - assert (1 < m) by nia. destruct (P m ltac:(lia)) as (r & R & D). exists r. split; [auto |]. split; [apply (Z.divide_trans _ m); auto; exists k; lia |].
    apply Z.divide_pos_le in D; [| lia]. pose proof (prime_ge_2 r R). nia.
Qed.
Theorem pocklington1 : forall N a q b u v l, 1 < N -> prime q -> a ^ (N - 1) mod N = 1 -> witness N a q b u v l -> N < q * q -> prime N.
Proof.
  intros N a q b u v l HN Q E W B. destruct (prime_dec N) as [| NP]; [auto |]. destruct (small_factor N HN NP) as (r & R & D & S).
  pose proof (witness_div N a q b u v l r HN Q E W R D) as X. pose proof (prime_ge_2 r R). pose proof (prime_ge_2 q Q). apply Z.divide_pos_le in X; [nia | lia].
Qed.
Theorem pocklington2 : forall N a q b u v l q' b' u' v' l', 1 < N -> prime q -> prime q' -> q <> q' -> a ^ (N - 1) mod N = 1 ->
  witness N a q b u v l -> witness N a q' b' u' v' l' -> N < (q * q') * (q * q') -> prime N.
Proof.
  intros N a q b u v l q' b' u' v' l' HN Q Q' NE E W W' B. destruct (prime_dec N) as [| NP]; [auto |]. destruct (small_factor N HN NP) as (r & R & D & S).
  pose proof (witness_div N a q b u v l r HN Q E W R D) as X. pose proof (witness_div N a q' b' u' v' l' r HN Q' E W' R D) as X'.
  pose proof (prime_ge_2 r R). pose proof (prime_ge_2 q Q). pose proof (prime_ge_2 q' Q').
  assert (Y : (q * q' | r - 1)).
  { destruct X as [k Ek]. rewrite Ek in X'. apply prime_mult in X'; auto. destruct X' as [[j ->] | X'].
    - exists j. lia.
    - exfalso. destruct (prime_divisors q Q q' X') as [?|[?|[?|?]]]; lia. }
  apply Z.divide_pos_le in Y; [nia | lia].
Qed.
(** The power a^(N-1) from a^((N-1)/q). *)
Lemma fermat_from N a q b l l' : 1 < N -> 0 < q -> chain_is a N l b ((N - 1) / q) = true -> chain_is b N l' 1 q = true -> (N - 1) / q * q = N - 1 -> a ^ (N - 1) mod N = 1.
Proof.
  intros HN Hq H H' E. apply chain_is_eq in H; [| lia]. apply chain_is_eq in H'; [| lia]. rewrite <- E, Z.pow_mul_r by nia.
  rewrite (pow_mod_eq N ltac:(lia) q ltac:(lia) _ b H), H'. apply Z.mod_small. lia.
Qed.

(** Small primes by trial division. *)
Definition trial (n : Z) : bool := (1 <? n) && forallb (fun k => negb (n mod (Z.of_nat k + 2) =? 0)) (seq 0 (Z.to_nat (Z.sqrt n - 1))).
Lemma trial_prime n : trial n = true -> prime n.
Proof.
  unfold trial. rewrite andb_true_iff, Z.ltb_lt. intros [H T]. destruct (prime_dec n) as [| NP]; [auto |]. exfalso.
  destruct (small_factor n H NP) as (r & R & D & S). pose proof (prime_ge_2 r R).
  assert (r <= Z.sqrt n) by (apply Z.sqrt_le_square; lia).
  rewrite forallb_forall in T. specialize (T (Z.to_nat (r - 2))). rewrite Z2Nat.id in T by lia. replace (r - 2 + 2) with r in T by ring.
  assert (I : In (Z.to_nat (r - 2)) (seq 0 (Z.to_nat (Z.sqrt n - 1)))) by (apply in_seq; lia). apply T in I. rewrite negb_true_iff, Z.eqb_neq in I. apply I. apply Z.mod_divide; [lia | auto].
Qed.
