(** C103: transactions with nil inputs, nil outputs or outputs without an address. *)
From Verif.Model Require Import Base Bech32 Hex Cbor Network Address Tx NilTx.
From Verif.Spec Require Import CborSpec TxSpec MdSpec Values.
From Verif.Proofs Require Import Util CborFacts TxFacts.
From Verif.Props Require Import Tx Builder.

(** ** What is written *)
Definition nin_item (i : option TxInput) : item := match i with None => null_item | Some i => input_item (TxHash i, Index i) end.
Definition nout_item (o : option NOutput) : item :=
  match o with None => null_item | Some o => Arr [match NAddress o with None => null_item | Some a => addr_item a end; Uint (NAmount o)] end.
Definition nbody_item (b : NBody) : item :=
  Map ([(Uint 0, Arr (map nin_item (NInputs b))); (Uint 1, Arr (map nout_item (NOutputs b))); (Uint 2, Uint (NFee b))]
       ++ (if NTTL b =? 0 then [] else [(Uint 3, Uint (NTTL b))])
       ++ (match NAux b with [] => [] | h => [(Uint 7, Bstr h)] end)).
(** Everything that is there is well-formed. *)
Definition nin_ok (i : option TxInput) : Prop := match i with None => True | Some i => in_ok i end.
Definition nout_ok (o : option NOutput) : Prop :=
  match o with
  | None => True
  | Some o => match NAddress o with None => 0 <= NAmount o < 2 ^ 64 | Some a => out_ok {| OutAddress := a; OutAmount := NAmount o |} end
  end.
Definition nbody_ok (b : NBody) : Prop :=
  Forall nin_ok (NInputs b) /\ Forall nout_ok (NOutputs b) /\ zlen (NInputs b) < 2 ^ 64 /\ zlen (NOutputs b) < 2 ^ 64 /\
  0 <= NFee b < 2 ^ 64 /\ 0 <= NTTL b < 2 ^ 32 /\ all_bytes (NAux b) /\ zlen (NAux b) < 2 ^ 64.
(** Something is missing. *)
Definition missing (b : NBody) : Prop := In None (NInputs b) \/ In None (NOutputs b) \/ exists o, In (Some o) (NOutputs b) /\ NAddress o = None.

Lemma enc_noutputs_spec l : Forall nout_ok l -> enc_noutputs l = Ok (flat_map cbor (map nout_item l)) /\ Forall item_ok (map nout_item l).
Proof.
  assert (N : item_ok null_item) by (cbn; lia). assert (EN : enc_nil = cbor null_item) by reflexivity.
  induction 1 as [| o l Ho Hl [IH1 IH2]]; [split; [reflexivity | constructor] |]. destruct o as [o |].
  - assert (X : match NAddress o with None => Ok enc_nil | Some a => addr_marshal a end = Ok (cbor match NAddress o with None => null_item | Some a => addr_item a end)
      /\ item_ok match NAddress o with None => null_item | Some a => addr_item a end /\ 0 <= NAmount o < 2 ^ 64).
    { cbn [nout_ok] in Ho. destruct (NAddress o) as [a |]; [|rewrite <- EN; auto]. destruct (addr_marshal_spec _ Ho) as [E I]. cbn [OutAddress] in *. split; [exact E |]. split; [exact I | apply Ho]. }
    destruct X as (E & I & R). split.
    + cbn [enc_noutputs enc_noutput map flat_map]. rewrite E. cbn [bind]. rewrite IH1. cbn [bind]. f_equal. f_equal.
      cbn [nout_item cbor flat_map length]. unfold enc_array_head. rewrite enc_head_spec, enc_uint_spec by lia. rewrite app_nil_r. reflexivity.
    + cbn [map]. apply Forall_cons; [| exact IH2]. cbn [nout_item item_ok fold_right length]. split; [lia |]. split; [exact I |]. split; [exact R | exact Logic.I].
  - split.
    + cbn [enc_noutputs enc_noutput bind map flat_map nout_item]. rewrite IH1. cbn [bind]. rewrite EN. reflexivity.
    + cbn [map nout_item]. apply Forall_cons; assumption.
Qed.
Lemma enc_ninputs_spec l : Forall nin_ok l -> concat (map enc_ninput l) = flat_map cbor (map nin_item l) /\ Forall item_ok (map nin_item l).
Proof.
  induction 1 as [| o l Ho Hl [IH1 IH2]]; [split; [reflexivity | constructor] |]. destruct o as [i |].
  - assert (F : Forall in_ok [i]) by (constructor; [exact Ho | constructor]). destruct (enc_inputs_spec [i] F) as [E I]. cbn [map concat flat_map] in E, I. rewrite !app_nil_r in E. inversion I as [| ? ? I1 _]; subst.
    split; [cbn [map concat flat_map enc_ninput nin_item]; rewrite IH1, E; reflexivity | cbn [map nin_item]; apply Forall_cons; assumption].
  - split; [cbn [map concat flat_map enc_ninput nin_item]; rewrite IH1; reflexivity | cbn [map nin_item]; apply Forall_cons; [cbn; lia | exact IH2]].
Qed.
Lemma nbody_item_ok b : nbody_ok b -> item_ok (nbody_item b).
Proof.
  intros (HI & HO & LI & LO & F & T & A & LA). destruct (enc_ninputs_spec _ HI) as [_ I]. destruct (enc_noutputs_spec _ HO) as [_ O].
  apply fold_right_Forall in I, O. unfold nbody_item, zlen in *.
  destruct (NTTL b =? 0), (NAux b) as [| x a] eqn:E; cbn [app item_ok fold_right length map] in *; rewrite ?map_length; repeat split; auto; try lia; apply A; assumption.
Qed.
Lemma nbody_marshal_spec b : nbody_ok b -> nbody_marshal b = Ok (cbor (nbody_item b)).
Proof.
  intros (HI & HO & LI & LO & F & T & A & LA). unfold nbody_marshal.
  rewrite (proj1 (enc_noutputs_spec _ HO)), (proj1 (enc_ninputs_spec _ HI)). cbn [bind]. f_equal.
  unfold enc_map_head, enc_array_head, nbody_item.
  pose proof (zlen_nonneg (NInputs b)). pose proof (zlen_nonneg (NOutputs b)).
  rewrite !(enc_head_spec 4), !enc_uint_spec by (unfold zlen in *; lia).
  assert (Ez : (zlen (NAux b) =? 0) = match NAux b with [] => true | _ => false end) by (destruct (NAux b); reflexivity).
  rewrite Ez. destruct (NTTL b =? 0) eqn:Et, (NAux b) as [| x a] eqn:E; cbn [app cbor flat_map length]; rewrite !map_length, ?(enc_bytes_spec (x :: a)) by auto;
    rewrite (enc_head_spec 5) by lia; cbn [cbor]; rewrite ?app_nil_r, <- ?app_assoc; reflexivity.
Qed.

(** ** Where nothing is nil, this is Model/Tx.v *)
Lemma n_outputs l : enc_noutputs (map (fun o => Some (nout o)) l) = enc_outputs l.
Proof. induction l as [| o l IH]; [reflexivity |]. cbn [map enc_noutputs enc_outputs enc_noutput nout NAddress NAmount]. rewrite IH. reflexivity. Qed.
Lemma n_inputs l : map enc_ninput (map Some l) = map enc_input l.
Proof. rewrite map_map. reflexivity. Qed.
Lemma n_zlen {A B} (f : A -> B) l : zlen (map f l) = zlen l.
Proof. unfold zlen. rewrite map_length. reflexivity. Qed.
Lemma n_marshal b : nbody_marshal (nbody b) = body_marshal b.
Proof. unfold nbody_marshal, body_marshal. cbn [nbody NInputs NOutputs NFee NTTL NAux]. rewrite n_outputs, n_inputs, !n_zlen. reflexivity. Qed.
Section Agree.
Context {C : TxCrypto} {MO : MapOrder}.
Lemma n_tx_marshal n t : ntx_marshal n (ntx t) = tx_marshal n t.
Proof. unfold ntx_marshal, tx_marshal. cbn [ntx NTxBody NWitness NValid NMeta]. rewrite n_marshal. reflexivity. Qed.
Lemma n_calc n t : ncalc_aux n (ntx t) = (do b <- calc_aux n t; Ok (nbody b)).
Proof. unfold ncalc_aux, calc_aux. cbn [ntx NMeta NTxBody]. destruct (Metadata t) as [m |]; [| reflexivity]. destruct (enc_md _); reflexivity. Qed.
Lemma n_after {A} n t (k : NTx -> result A) (k' : Tx -> result A) : (forall t, k (ntx t) = k' t) ->
  nafter_aux n (ntx t) k = (nbody (fst (after_aux n t k')), snd (after_aux n t k')).
Proof.
  intros E. unfold nafter_aux, after_aux. rewrite n_calc. destruct (calc_aux n t) as [b | e |]; cbn [bind fst snd]; [| reflexivity | reflexivity].
  rewrite <- (E (with_body t b)). reflexivity.
Qed.
Lemma n_bytes n t : ntx_bytes n (ntx t) = (nbody (fst (tx_bytes n t)), snd (tx_bytes n t)).
Proof. apply n_after. intros t'. apply n_tx_marshal. Qed.
Lemma n_hash n t : ntx_hash n (ntx t) = (nbody (fst (tx_hash n t)), snd (tx_hash n t)).
Proof. apply n_after. intros t'. cbn [ntx NTxBody]. rewrite n_marshal. reflexivity. Qed.
Lemma n_fee n l t : ntx_fee n l (ntx t) = (nbody (fst (tx_fee n l t)), snd (tx_fee n l t)).
Proof. apply n_after. intros t'. rewrite n_tx_marshal. reflexivity. Qed.
Lemma n_sum_in l a : nsum_inputs (map Some l) a = Ok (fold_left (fun a i => u64 (a + InAmount i)) l a).
Proof. revert a. induction l as [| x l IH]; intros a; [reflexivity |]. apply IH. Qed.
Lemma n_sum_out l a : nsum_outputs (map (fun o => Some (nout o)) l) a = Ok (fold_left (fun a o => u64 (a + OutAmount o)) l a).
Proof. revert a. induction l as [| x l IH]; intros a; [reflexivity |]. apply IH. Qed.
Lemma n_totals b : ntotals (nbody b) = Ok (total_inputs b, total_outputs b).
Proof. unfold ntotals. cbn [nbody NInputs NOutputs]. rewrite n_sum_in, n_sum_out. reflexivity. Qed.
Lemma n_min_fee n l t : nmin_fee n l (ntx t) = Ok (min_fee n l t).
Proof.
  unfold nmin_fee, min_fee. change (NTxBody (ntx t)) with (nbody (Body t)). rewrite n_totals. cbn [bind fst snd]. change (NWitness (ntx t)) with (Witness t). change (NMeta (ntx t)) with (Metadata t).
  set (body0 := {| Inputs := Inputs (Body t); Outputs := Outputs (Body t); Fee := Fee (Body t); TTL := TTL (Body t); AuxHash := [] |}).
  set (feeTx0 := {| Body := body0; Witness := Witness t; Valid := true; Metadata := Metadata t |}).
  change {| NTxBody := {| NInputs := NInputs (nbody (Body t)); NOutputs := NOutputs (nbody (Body t)); NFee := NFee (nbody (Body t)); NTTL := NTTL (nbody (Body t)); NAux := [] |}; NWitness := Witness t; NValid := true; NMeta := Metadata t |} with (ntx feeTx0).
  change {| NInputs := NInputs (nbody (Body t)); NOutputs := NOutputs (nbody (Body t)); NFee := NFee (nbody (Body t)); NTTL := NTTL (nbody (Body t)); NAux := [] |} with (nbody body0).
  rewrite n_calc. set (ws := match Witness t with [] => [placeholder_witness] | w => w end).
  assert (E1 : match (do b <- calc_aux n feeTx0; Ok (nbody b)) with Ok b' => b' | _ => nbody body0 end = nbody (match calc_aux n feeTx0 with Ok b' => b' | _ => body0 end)) by (destruct (calc_aux n feeTx0); reflexivity).
  rewrite E1. set (body1 := match calc_aux n feeTx0 with Ok b' => b' | _ => body0 end).
  assert (E2 : (if total_inputs (Body t) =? total_outputs (Body t) then nbody body1
     else nadd_outputs (nbody body1) [Some {| NAddress := Some placeholder_addr; NAmount := u64 (u64 (total_inputs (Body t) - total_outputs (Body t)) - 200000) |}]) =
     nbody (if total_inputs (Body t) =? total_outputs (Body t) then body1 else add_outputs body1 [{| OutAddress := placeholder_addr; OutAmount := placeholder_amount (Body t) |}])).
  { destruct (_ =? _); [reflexivity |]. unfold nadd_outputs, add_outputs, nbody. cbn [NInputs NOutputs NFee NTTL NAux Inputs Outputs Fee TTL AuxHash]. rewrite map_app. reflexivity. }
  rewrite E2. set (body2 := if _ =? _ then body1 else _).
  change {| NTxBody := nbody body2; NWitness := ws; NValid := true; NMeta := Metadata t |} with (ntx {| Body := body2; Witness := ws; Valid := true; Metadata := Metadata t |}).
  rewrite n_fee. set (feeTx2 := {| Body := body2; Witness := ws; Valid := true; Metadata := Metadata t |}). destruct (tx_fee (n + 1) l feeTx2) as [body3 r1]. cbn [fst snd].
  change (nwith_body (ntx feeTx2) (nset_fee (nbody body3) (fee_or_zero r1))) with (ntx (with_body feeTx2 (set_fee body3 (fee_or_zero r1)))).
  rewrite n_fee. destruct (tx_fee (n + 3) l _) as [b4 r2]. reflexivity.
Qed.
Lemma n_add_change n l t a : nadd_change n l (ntx t) (Some a) =
  Ok (ntx {| Body := add_change (Body t) (fst (min_fee n l t)) a; Witness := snd (min_fee n l t); Valid := Valid t; Metadata := Metadata t |}).
Proof.
  unfold nadd_change. rewrite n_min_fee. cbn [bind]. set (fw := min_fee n l t). change (nset_fee (NTxBody (ntx t)) (fst fw)) with (nbody (set_fee (Body t) (fst fw))). rewrite n_totals. cbn [bind fst snd].
  f_equal. unfold nwith_witness, nwith_body, ntx, nadd_outputs, nbody, add_change, add_outputs. cbn [NTxBody NWitness NValid NMeta NInputs NOutputs NFee NTTL NAux Body Inputs Outputs Fee TTL AuxHash Witness Valid Metadata set_fee]. rewrite map_app. reflexivity.
Qed.
Lemma n_build n keys t : nbuild n keys (ntx t) = (do h <- snd (tx_hash n t); do ws <- sign_all keys h; Ok (ntx {| Body := fst (tx_hash n t); Witness := ws; Valid := Valid t; Metadata := Metadata t |})).
Proof. unfold nbuild. rewrite n_hash. destruct (snd (tx_hash n t)); [| reflexivity | reflexivity]. cbn [bind]. destruct (sign_all keys a); reflexivity. Qed.
End Agree.

(** Without nil pointers this model gives what Model/Tx.v gives. *)
Theorem C103_values : forall (C : TxCrypto) (MO : MapOrder) n l t a keys,
  nbody_marshal (nbody (Body t)) = body_marshal (Body t) /\
  ntx_bytes n (ntx t) = (nbody (fst (tx_bytes n t)), snd (tx_bytes n t)) /\
  ntx_hash n (ntx t) = (nbody (fst (tx_hash n t)), snd (tx_hash n t)) /\
  nmin_fee n l (ntx t) = Ok (min_fee n l t) /\
  nadd_change n l (ntx t) (Some a) = Ok (ntx {| Body := add_change (Body t) (fst (min_fee n l t)) a; Witness := snd (min_fee n l t); Valid := Valid t; Metadata := Metadata t |}) /\
  nbuild n keys (ntx t) = (do h <- snd (tx_hash n t); do ws <- sign_all keys h; Ok (ntx {| Body := fst (tx_hash n t); Witness := ws; Valid := Valid t; Metadata := Metadata t |})) /\
  ~ missing (nbody (Body t)).
Proof.
  intros C MO n l t a keys. split; [apply n_marshal |]. split; [apply n_bytes |]. split; [apply n_hash |]. split; [apply n_min_fee |]. split; [apply n_add_change |]. split; [apply n_build |].
  intros [M | [M | (o & I & M)]]; cbn [nbody NInputs NOutputs] in *.
  - apply in_map_iff in M as (? & Q & _). discriminate Q.
  - apply in_map_iff in M as (? & Q & _). discriminate Q.
  - apply in_map_iff in I as (x & Q & _). injection Q as <-. discriminate M.
Qed.
Print Assumptions C103_values.

(** MinFee and AddChangeIfNeeded panic exactly when a pointer is nil; a missing address does not show. *)
Lemma nsum_in_panic l a : nsum_inputs l a = Panic <-> In None l.
Proof.
  revert a. induction l as [| [i |] l IH]; intros a; cbn [nsum_inputs In].
  - split; [discriminate | intros []].
  - rewrite IH. split; [intros I; right; exact I | intros [Q | I]; [discriminate Q | exact I]].
  - split; [intros _; left; reflexivity | reflexivity].
Qed.
Lemma nsum_in_ok l a : (exists v, nsum_inputs l a = Ok v) \/ nsum_inputs l a = Panic.
Proof. revert a. induction l as [| [i |] l IH]; intros a; cbn [nsum_inputs]; [left; eauto | apply IH | right; reflexivity]. Qed.
Lemma nsum_out_panic l a : nsum_outputs l a = Panic <-> In None l.
Proof.
  revert a. induction l as [| [i |] l IH]; intros a; cbn [nsum_outputs In].
  - split; [discriminate | intros []].
  - rewrite IH. split; [intros I; right; exact I | intros [Q | I]; [discriminate Q | exact I]].
  - split; [intros _; left; reflexivity | reflexivity].
Qed.
Lemma nsum_out_ok l a : (exists v, nsum_outputs l a = Ok v) \/ nsum_outputs l a = Panic.
Proof. revert a. induction l as [| [i |] l IH]; intros a; cbn [nsum_outputs]; [left; eauto | apply IH | right; reflexivity]. Qed.
Lemma ntotals_cases b : (ntotals b = Panic /\ (In None (NInputs b) \/ In None (NOutputs b))) \/ (exists io, ntotals b = Ok io) /\ ~ (In None (NInputs b) \/ In None (NOutputs b)).
Proof.
  unfold ntotals. destruct (nsum_in_ok (NInputs b) 0) as [[i E] | E].
  - assert (NI : ~ In None (NInputs b)) by (intros Q; apply (nsum_in_panic _ 0) in Q; congruence). rewrite E. cbn [bind]. destruct (nsum_out_ok (NOutputs b) 0) as [[o E'] | E'].
    + assert (NO : ~ In None (NOutputs b)) by (intros Q; apply (nsum_out_panic _ 0) in Q; congruence). rewrite E'. cbn [bind]. right. split; [eauto | tauto].
    + left. rewrite E'. split; [reflexivity | right; apply (nsum_out_panic _ 0); exact E'].
  - left. rewrite E. split; [reflexivity | left; apply (nsum_in_panic _ 0); exact E].
Qed.
Theorem C103_panic : forall (C : TxCrypto) (MO : MapOrder) n l t a,
  (nmin_fee n l t = Panic <-> In None (NInputs (NTxBody t)) \/ In None (NOutputs (NTxBody t))) /\
  (nadd_change n l t a = Panic <-> In None (NInputs (NTxBody t)) \/ In None (NOutputs (NTxBody t))) /\
  (~ (In None (NInputs (NTxBody t)) \/ In None (NOutputs (NTxBody t))) -> exists t' fee, nadd_change n l t a = Ok t' /\ NFee (NTxBody t') = fee /\
     NInputs (NTxBody t') = NInputs (NTxBody t) /\ exists c, NOutputs (NTxBody t') = NOutputs (NTxBody t) ++ [Some {| NAddress := a; NAmount := c |}]).
Proof.
  intros C MO n l t a.
  assert (M : (nmin_fee n l t = Panic /\ (In None (NInputs (NTxBody t)) \/ In None (NOutputs (NTxBody t)))) \/ (exists fw, nmin_fee n l t = Ok fw) /\ ~ (In None (NInputs (NTxBody t)) \/ In None (NOutputs (NTxBody t)))).
  { unfold nmin_fee. cbv zeta. destruct (ntotals_cases (NTxBody t)) as [[E N] | [[io E] N]]; [left | right]; rewrite E; cbn [bind]; (split; [| exact N]); [reflexivity |].
    match goal with |- context [ntx_fee (n + 1) l ?x] => destruct (ntx_fee (n + 1) l x) as [b3 r1] end. match goal with |- context [ntx_fee (n + 3) l ?x] => destruct (ntx_fee (n + 3) l x) as [b4 r2] end. eauto. }
  destruct M as [[E N] | [[fw E] N]].
  - split; [tauto |]. split; [|tauto]. unfold nadd_change. rewrite E. cbn [bind]. tauto.
  - split; [rewrite E; split; [discriminate | tauto] |].
    assert (X : exists io, ntotals (nset_fee (NTxBody t) (fst fw)) = Ok io).
    { destruct (ntotals_cases (nset_fee (NTxBody t) (fst fw))) as [[_ Q] | [X _]]; [destruct (N Q) | exact X]. }
    destruct X as [io X]. unfold nadd_change. rewrite E. cbn [bind]. rewrite X. cbn [bind]. split; [split; [discriminate | tauto] |].
    intros _. do 2 eexists. split; [reflexivity |]. split; [reflexivity |]. split; [reflexivity |]. eexists. reflexivity.
Qed.
Print Assumptions C103_panic.

(** Body.Bytes and Hash: null is written wherever something is nil; Build signs that. *)
Theorem C103_exact : forall (C : TxCrypto) (MO : MapOrder) n keys t, nbody_ok (NTxBody t) -> NMeta t = None ->
  nbody_marshal (NTxBody t) = Ok (cbor (nbody_item (NTxBody t))) /\
  ntx_hash n t = (NTxBody t, Ok (blake2b256 (cbor (nbody_item (NTxBody t))))) /\
  nbuild n keys t = (do ws <- sign_all keys (blake2b256 (cbor (nbody_item (NTxBody t)))); Ok (nwith_witness t ws)).
Proof.
  intros C MO n keys t K M. pose proof (nbody_marshal_spec _ K) as E. split; [exact E |].
  assert (Eh : ntx_hash n t = (NTxBody t, Ok (blake2b256 (cbor (nbody_item (NTxBody t)))))).
  { unfold ntx_hash, nafter_aux, ncalc_aux. rewrite M. cbn [nwith_body NTxBody]. rewrite E. reflexivity. }
  split; [exact Eh |]. unfold nbuild. rewrite Eh. cbn [bind]. destruct (sign_all keys _); cbn [bind]; [|reflexivity |reflexivity]. destruct t; reflexivity.
Qed.
Print Assumptions C103_exact.

(** False: with something missing there is no error, and what is written and signed is no transaction body of the ledger. *)
Theorem C103_refuted : forall (C : TxCrypto) (MO : MapOrder) n t, nbody_ok (NTxBody t) -> NMeta t = None -> missing (NTxBody t) ->
  exists s, nbody_marshal (NTxBody t) = Ok s /\ snd (ntx_hash n t) = Ok (blake2b256 s) /\
    forall ins outs fee ttl aux, item_ok (body_item ins (map output_item outs) fee ttl aux) -> cbor (body_item ins (map output_item outs) fee ttl aux) <> s.
Proof.
  intros C MO n t K M X. destruct (C103_exact C MO n [] t K M) as (E1 & E2 & _). exists (cbor (nbody_item (NTxBody t))). split; [exact E1 |]. split; [rewrite E2; reflexivity |].
  intros ins outs fee ttl aux O E. apply cbor_inj in E; [| exact O | apply nbody_item_ok; exact K]. unfold body_item, nbody_item in E. injection E as E3 E4 _ _.
  destruct X as [X | [X | (o & X & A)]].
  - apply (in_map nin_item) in X. rewrite <- E3 in X. apply in_map_iff in X as (x & Q & _). discriminate Q.
  - apply (in_map nout_item) in X. rewrite <- E4 in X. apply in_map_iff in X as (x & Q & _). discriminate Q.
  - apply (in_map nout_item) in X. rewrite <- E4 in X. apply in_map_iff in X as (x & Q & _). cbn [nout_item] in Q. rewrite A in Q. discriminate Q.
Qed.
Print Assumptions C103_refuted.
(** An output without an address next to an ordinary input. *)
Example C103_example : let b := {| NInputs := [Some (ex_input 5000000)]; NOutputs := [Some {| NAddress := None; NAmount := 1000000 |}]; NFee := 170000; NTTL := 0; NAux := [] |} in
  nbody_ok b /\ missing b /\ exists s, nbody_marshal b = Ok (s ++ [1; 129; 130; 246; 26; 0; 15; 66; 64; 2; 26; 0; 2; 152; 16]).
Proof.
  cbv zeta. split; [| split].
  - split; [apply Forall_cons; [| apply Forall_nil] | split; [apply Forall_cons; [cbn; lia | apply Forall_nil] |]].
    + split; [intros x I; apply repeat_spec in I; subst x; lia |]. split; [vm_compute; reflexivity | cbn; lia].
    + split; [vm_compute; reflexivity |]. split; [vm_compute; reflexivity |]. cbn [NFee NTTL NAux]. split; [lia |]. split; [lia |]. split; [intros x [] | vm_compute; reflexivity].
  - right. right. eexists. split; [left; reflexivity | reflexivity].
  - exists ([163; 0; 129; 130; 88; 32] ++ repeat 9 32 ++ [1]). vm_compute. reflexivity.
Qed.
