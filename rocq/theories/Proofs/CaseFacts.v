(** Bech32 texts with characters outside ASCII. *)
From Verif.Model Require Import Base Utf8 Bech32 Strings.
From Verif.Spec Require Import Bech32Spec BchSpec Utf8Spec CaseSpec.
From Verif.Proofs Require Import Util Utf8Facts ConvertBits Polymod Bech32Facts Bech32Props BchFacts.
Open Scope Z_scope.

(** ** Texts as lists of runes *)
Definition enc (rs : list Z) : bytes := flat_map encode_rune rs.
Definition scalars (rs : list Z) : Prop := Forall scalar rs.
Lemma enc_cons r rs : enc (r :: rs) = encode_rune r ++ enc rs. Proof. reflexivity. Qed.
Lemma enc_app a b : enc (a ++ b) = enc a ++ enc b. Proof. apply flat_map_app. Qed.
Lemma encode_length r : scalar r -> (1 <= length (encode_rune r))%nat. Proof. intros S. exact (utf8_length _ _ (utf8_total r S)). Qed.
Lemma decode_enc r t : scalar r -> decode_rune (encode_rune r ++ t) = (r, length (encode_rune r)).
Proof. intros S. apply decode_utf8; [apply utf8_total; exact S | exact S]. Qed.
Lemma scalar_error : scalar RuneError. Proof. right. unfold RuneError. lia. Qed.
Lemma skip_enc r t : skipn (length (encode_rune r)) (encode_rune r ++ t) = t.
Proof. rewrite skipn_app, skipn_all, Nat.sub_diag. reflexivity. Qed.
Lemma enc_inj a : forall b, scalars a -> scalars b -> enc a = enc b -> a = b.
Proof.
  induction a as [| r a IH]; intros [| x b] A B E.
  - reflexivity.
  - inversion B; subst. pose proof (encode_length x ltac:(assumption)) as L. rewrite enc_cons in E. change (enc []) with (@nil Z) in E. destruct (encode_rune x); [cbn in L; lia | discriminate].
  - inversion A; subst. pose proof (encode_length r ltac:(assumption)) as L. rewrite enc_cons in E. change (enc []) with (@nil Z) in E. destruct (encode_rune r); [cbn in L; lia | discriminate].
  - inversion A as [| ? ? Sr Sa]; inversion B as [| ? ? Sx Sb]; subst. rewrite !enc_cons in E. pose proof (decode_enc r (enc a) Sr) as D. rewrite E, (decode_enc x (enc b) Sx) in D. injection D as -> _.
    apply app_inv_head in E. f_equal. apply IH; assumption.
Qed.
Lemma text_runes s : utf8_text s -> exists rs, scalars rs /\ s = enc rs.
Proof.
  induction 1 as [| c b r SC U _ (rs & S & ->)]; [exists []; split; [constructor | reflexivity] |].
  exists (c :: rs). split; [constructor; assumption |]. rewrite enc_cons, (encode_utf8 c b U). reflexivity.
Qed.
Lemma map_runes_enc f rs : scalars rs -> map_runes f (enc rs) = enc (map f rs).
Proof.
  intros S. unfold map_runes. assert (G : forall n, (length (enc rs) <= n)%nat -> map_runes_aux n f (enc rs) = enc (map f rs)); [| apply G; lia].
  induction S as [| r rs Sr _ IH]; intros n L; [destruct n; reflexivity |]. cbn [map]. rewrite !enc_cons in *. rewrite app_length in L. pose proof (encode_length r Sr) as L1.
  destruct n as [| n]; [lia |]. cbn [map_runes_aux]. rewrite (decode_enc r (enc rs) Sr), skip_enc, IH by lia. destruct (encode_rune r ++ enc rs) eqn:E; [| reflexivity].
  apply (f_equal (@length Z)) in E. rewrite app_length in E. cbn [length] in E. lia.
Qed.
(** Whatever the bytes, the result is valid. *)
Lemma decode_scalar s : bytes_ok s -> s <> [] -> scalar (fst (decode_rune s)) /\ (1 <= snd (decode_rune s))%nat.
Proof.
  intros B N. destruct (decode_cases s B N) as [D | (c & b & t & -> & U & SC & ->)].
  - destruct (decode_rune s) as [r size]. destruct D as [-> ->]. split; [exact scalar_error | cbn; lia].
  - split; [exact SC | exact (utf8_length c b U)].
Qed.
Lemma map_runes_valid f s : (forall r, scalar r -> scalar (f r)) -> bytes_ok s -> exists rs, scalars rs /\ map_runes f s = enc rs.
Proof.
  intros F. unfold map_runes. generalize (length s) as n. intros n. revert s. induction n as [| n IH]; intros s B.
  - exists []. split; [constructor | destruct s; reflexivity].
  - destruct s as [| x s]; [exists []; split; [constructor | reflexivity] |]. destruct (decode_scalar (x :: s) B ltac:(discriminate)) as [SC _]. cbn [map_runes_aux]. destruct (decode_rune (x :: s)) as [r size]. cbn [fst] in SC.
    destruct (IH (skipn size (x :: s))) as (rs & S & ->); [apply Forall_skipn'; exact B |]. exists (f r :: rs). split; [constructor; auto | reflexivity].
Qed.
(** A string that is its own image is valid, and each of its runes is fixed. *)
Lemma map_runes_fixed f s : (forall r, scalar r -> scalar (f r)) -> bytes_ok s -> map_runes f s = s -> exists rs, scalars rs /\ s = enc rs /\ map f rs = rs.
Proof.
  intros F B E. destruct (map_runes_valid f s F B) as (rs & S & E1). rewrite E in E1. exists rs. split; [exact S |]. split; [exact E1 |].
  rewrite E1, (map_runes_enc f rs S) in E. apply enc_inj in E; [exact E | | exact S]. apply Forall_map. eapply Forall_impl; [| exact S]. exact F.
Qed.
Lemma enc_ascii a : Forall (fun c => c < 128) a -> enc a = a.
Proof. induction 1 as [| c a H _ IH]; [reflexivity |]. rewrite enc_cons, IH. unfold encode_rune. rewrite (proj2 (Z.ltb_lt c 128)) by lia. reflexivity. Qed.
Lemma enc_high r : scalar r -> 128 <= r -> exists x t, encode_rune r = x :: t /\ 194 <= x.
Proof. intros S H. destruct (utf8_range r _ (utf8_total r S)) as [[L _] | [_ X]]; [lia | exact X]. Qed.
(** An ASCII prefix of the bytes is a prefix of the runes. *)
Lemma enc_split a : forall rs b, Forall (fun c => 0 <= c < 128) a -> scalars rs -> enc rs = a ++ b -> exists rb, rs = a ++ rb /\ enc rb = b /\ scalars rb.
Proof.
  induction a as [| c a IH]; intros rs b A S E; [exists rs; auto |]. inversion A as [| ? ? C A']; subst. destruct rs as [| r rs]; [discriminate |]. inversion S as [| ? ? Sr S']; subst. rewrite enc_cons in E.
  destruct (Z.lt_ge_cases r 128) as [L | L].
  - unfold encode_rune in E. rewrite (proj2 (Z.ltb_lt r 128)) in E by lia. cbn [app] in E. injection E as -> E. destruct (IH rs b A' S' E) as (rb & -> & E1 & S1). exists rb. auto.
  - destruct (enc_high r Sr L) as (x & t & Ex & X). rewrite Ex in E. cbn [app] in E. injection E as -> _. lia.
Qed.

(** ** Decode, once the case of the text is settled *)
Definition core {U : Unicode} (hrp chars : bytes) : result (bytes * bytes) :=
  do data <- from_chars chars;
  if negb (verifyChecksum hrp data) then Err EBech32Checksum else
  if (length data <? 6)%nat then Panic else
  do payload <- convertBits (firstn (length data - 6) data) 5 8 false;
  Ok (hrp, payload).
Lemma decode_core {U : Unicode} a b L : let s := a ++ 49 :: b in
  ~ In 49 b -> (to_lower s = s \/ to_upper s = s) -> (exists p, length p = length a /\ to_lower s = p ++ 49 :: L) -> a <> [] -> hrp_chars_ok a = true ->
  decode s = if (length b <? 6)%nat then Err EBech32Sep else core a L.
Proof.
  intros s N C (p & Lp & El) A HA. unfold decode. assert (M : negb (bytes_eqb (to_lower s) s) && negb (bytes_eqb (to_upper s) s) = false).
  { apply andb_false_iff. rewrite !negb_false_iff, !bytes_eqb_eq. exact C. }
  rewrite M. unfold s at 1. rewrite (last_index_split a b 49 N). replace (length a <? 1)%nat with false by (symmetry; apply Nat.ltb_ge; destruct a; [contradiction | cbn; lia]). cbn [orb].
  replace (length s <? length a + 7)%nat with (length b <? 6)%nat. 2: { unfold s. rewrite app_length. cbn [length]. destruct (Nat.ltb_spec (length b) 6), (Nat.ltb_spec (length a + S (length b)) (length a + 7)); lia. }
  destruct (length b <? 6)%nat; [reflexivity |]. replace (firstn (length a) s) with a by (unfold s; rewrite firstn_app, Nat.sub_diag, firstn_all; cbn [firstn]; rewrite app_nil_r; reflexivity). rewrite HA. cbn [negb]. rewrite El.
  assert (Esl : slice (p ++ 49 :: L) (length a + 1) (length (p ++ 49 :: L)) = Ok L).
  { pose proof (slice_ok (p ++ [49]) L []) as S. rewrite app_nil_r, <- app_assoc in S. cbn [app] in S. rewrite <- S. f_equal; rewrite ?app_length; cbn [length]; lia. }
  rewrite Esl. reflexivity.
Qed.
Lemma core_ascii {U U' : Unicode} a L : hrp_chars_ok a = true -> @core U a L = @core U' a L.
Proof.
  intros H. apply hrp_chars_Forall, hrp_ascii in H. unfold core, verifyChecksum. rewrite !hrpExpand_ascii by exact H. reflexivity.
Qed.

Section Tables.
Variables lo up : Z -> Z.
Hypothesis T : case_tables lo up.
#[local] Instance CF : Unicode := case_functions lo up.

Lemma lo_scalar r : scalar r -> scalar (lo r). Proof. intros S. apply T. exact S. Qed.
Lemma up_scalar r : scalar r -> scalar (up r). Proof. intros S. apply T. exact S. Qed.
Lemma lo_ascii r : 0 <= r < 128 -> lo r = lower_byte r. Proof. intros S. apply (proj1 (proj2 T)). exact S. Qed.
Lemma up_ascii r : 0 <= r < 128 -> up r = upper_byte r. Proof. intros S. apply (proj1 (proj2 T)). exact S. Qed.
(** Runes that the lower-case mapping sends to the alphabet *)
Definition dekelvin (r : Z) : Z := if r =? 0x212A then 75 else r.
Lemma lo_char r : scalar r -> lo r < 128 -> lo r <> 105 -> 0 <= dekelvin r < 128 /\ lo r = lower_byte (dekelvin r).
Proof.
  intros S L N. destruct T as (_ & _ & T3 & T4 & _). unfold dekelvin. destruct (Z.lt_ge_cases r 128) as [R | R].
  - replace (r =? 0x212A) with false by lia. assert (0 <= r) by (unfold scalar in S; lia). split; [lia | apply lo_ascii; lia].
  - destruct (T3 r S R L) as [-> | [-> E]]; [| contradiction]. rewrite Z.eqb_refl. split; [lia |]. rewrite T4. reflexivity.
Qed.
Lemma kelvin_runes rs : scalars rs -> Forall (fun r => 0 <= dekelvin r < 128) rs -> kelvin (enc rs) (map dekelvin rs).
Proof.
  induction 1 as [| r rs S _ IH]; intros F; [constructor |]. inversion F as [| ? ? F1 F2]; subst. cbn [map]. rewrite enc_cons. unfold dekelvin at 1. unfold dekelvin in F1. destruct (Z.eqb_spec r 0x212A) as [-> | E].
  - change (encode_rune 0x212A) with [0xE2; 0x84; 0xAA]. cbn [app]. constructor. apply IH. exact F2.
  - unfold encode_rune. rewrite (proj2 (Z.ltb_lt r 128)) by lia. cbn [app]. constructor. apply IH. exact F2.
Qed.
Lemma kelvin_inv b b' : kelvin b b' -> Forall (fun c => 0 <= c < 128) b' -> exists rs, scalars rs /\ b = enc rs /\ b' = map dekelvin rs /\ Forall (fun r => 0 <= r < 128 \/ r = 0x212A) rs.
Proof.
  induction 1 as [| c s t _ IH | s t _ IH]; intros F; [exists []; repeat split; constructor | |]; inversion F as [| ? ? F1 F2]; subst; destruct (IH F2) as (rs & S & -> & -> & G).
  - exists (c :: rs). split; [constructor; [left; lia | exact S] |]. split; [rewrite enc_cons; unfold encode_rune; rewrite (proj2 (Z.ltb_lt c 128)) by lia; reflexivity |]. split; [| constructor; [left; exact F1 | exact G]].
    cbn [map]. f_equal. unfold dekelvin. replace (c =? 0x212A) with false by lia. reflexivity.
  - exists (0x212A :: rs). split; [constructor; [left; lia | exact S] |]. split; [reflexivity |]. split; [reflexivity | constructor; [right; reflexivity | exact G]].
Qed.
Lemma kelvin_in c b b' : kelvin b b' -> c < 128 -> In c b -> In c b'.
Proof.
  intros K L. induction K as [| x s t _ IH | s t _ IH]; intros I; [exact I | |].
  - destruct I as [-> | I]; [left; reflexivity | right; auto].
  - destruct I as [<- | [<- | [<- | I]]]; [lia .. |]. right. auto.
Qed.
Lemma no_lower_upper c : ~ is_lower c -> upper_byte c = c. Proof. unfold is_lower, upper_byte. destruct ((97 <=? c) && (c <=? 122)) eqn:E; lia. Qed.
Lemma upper_fixed c : upper_byte c = c -> ~ is_lower c. Proof. unfold is_lower, upper_byte. destruct ((97 <=? c) && (c <=? 122)) eqn:E; lia. Qed.
Lemma fixed_map (f : Z -> Z) l : Forall (fun c => f c = c) l -> map f l = l.
Proof. induction 1 as [| c l E _ IH]; [reflexivity |]. cbn [map]. rewrite E, IH. reflexivity. Qed.
Lemma map_fixed (f : Z -> Z) l : map f l = l -> Forall (fun c => f c = c) l.
Proof. induction l as [| c l IH]; intros E; [constructor |]. cbn [map] in E. injection E as E1 E2. constructor; auto. Qed.

Lemma decode_kelvin a b b' : a <> [] -> hrp_chars_ok a = true -> kelvin b b' -> b <> b' -> Forall (fun c => 0 <= c < 128) b' -> ~ In 49 b' -> no_lower (a ++ b') ->
  decode (a ++ 49 :: b) = if (length b <? 6)%nat then Err EBech32Sep else core a (map lower_byte b').
Proof.
  intros A HA K NE F N NL. destruct (kelvin_inv b b' K F) as (rb & S & Eb & Eb' & G). pose proof HA as HA'. apply hrp_chars_Forall in HA'.
  assert (Aa : Forall (fun c => 0 <= c < 128) a) by (eapply Forall_impl; [| exact HA']; cbn; lia).
  assert (Sa : scalars a) by (eapply Forall_impl; [| exact Aa]; intros c Hc; cbn beta in Hc; left; lia).
  assert (As : Forall (fun c => c < 128) a) by (eapply Forall_impl; [| exact Aa]; cbn; lia).
  set (rs := a ++ 49 :: rb). assert (Srs : scalars rs) by (apply Forall_app; split; [exact Sa | constructor; [left; lia | exact S]]).
  assert (Es : a ++ 49 :: b = enc rs) by (unfold rs; rewrite enc_app, enc_cons, (enc_ascii a As), <- Eb; reflexivity).
  assert (NA : ascii_only (a ++ 49 :: b) = false).
  { apply not_true_is_false. intros X. apply ascii_only_Forall in X. apply Forall_app in X as [_ X]. inversion X as [| ? ? _ X2]; subst. apply NE. clear - G X2. revert X2. induction G as [| r rb [R | ->] _ IH]; intros X; [reflexivity | |].
    - rewrite enc_cons in *. unfold encode_rune in *. rewrite (proj2 (Z.ltb_lt r 128)) in * by lia. cbn [app map] in *. inversion X; subst. rewrite (IH ltac:(assumption)). f_equal. unfold dekelvin. replace (r =? 0x212A) with false by lia. reflexivity.
    - inversion X as [| ? ? X1 _]. lia. }
  assert (UP : to_upper (a ++ 49 :: b) = a ++ 49 :: b).
  { unfold to_upper. rewrite NA. cbn [uni_upper CF case_functions]. rewrite Es, (map_runes_enc up rs Srs). f_equal. apply fixed_map. unfold rs. apply Forall_app. split.
    - apply Forall_forall. intros c Hc. rewrite Forall_forall in Aa. rewrite (up_ascii c (Aa c Hc)). apply no_lower_upper. apply NL. apply in_or_app. left. exact Hc.
    - constructor; [rewrite up_ascii by lia; reflexivity |]. apply Forall_forall. intros r Hr. rewrite Forall_forall in G. destruct (G r Hr) as [R | ->]; [| apply T]. rewrite (up_ascii r R). apply no_lower_upper. apply NL. apply in_or_app. right. rewrite Eb'. apply in_map_iff. exists r. split; [| exact Hr]. unfold dekelvin. replace (r =? 0x212A) with false by lia. reflexivity. }
  assert (LOW : to_lower (a ++ 49 :: b) = map lower_byte a ++ 49 :: map lower_byte b').
  { unfold to_lower. rewrite NA. cbn [uni_lower CF case_functions]. rewrite Es, (map_runes_enc lo rs Srs). unfold rs. rewrite map_app. cbn [map]. rewrite (lo_ascii 49) by lia. change (lower_byte 49) with 49.
    assert (E1 : map lo a = map lower_byte a) by (apply map_ext_in; intros c Hc; apply lo_ascii; rewrite Forall_forall in Aa; auto).
    assert (E2 : map lo rb = map lower_byte b'). { rewrite Eb', map_map. apply map_ext_in. intros r Hr. rewrite Forall_forall in G. destruct (G r Hr) as [R | ->]; [| apply T]. rewrite (lo_ascii r R). unfold dekelvin. replace (r =? 0x212A) with false by lia. reflexivity. }
    rewrite E1, E2. apply enc_ascii. apply Forall_app. split; [| constructor; [lia |]]; apply Forall_map.
    - eapply Forall_impl; [| exact As]. intros c Hc. apply lower_128. exact Hc.
    - eapply Forall_impl; [| exact F]. intros c Hc. cbn beta in Hc. apply lower_128. lia. }
  apply (decode_core a b); [| right; exact UP | exists (map lower_byte a); split; [apply map_length | exact LOW] | exact A | exact HA].
  intros I. apply N. apply (kelvin_in 49 b b' K); [lia | exact I].
Qed.

Lemma decode_other s : bytes_ok s -> ascii_only s = false -> (forall e, decode s <> Err e) ->
  exists a b b', s = a ++ 49 :: b /\ a <> [] /\ hrp_chars_ok a = true /\ kelvin b b' /\ b <> b' /\ Forall (fun c => 0 <= c < 128) b' /\ ~ In 49 b' /\ no_lower (a ++ b') /\
    (6 <= length b)%nat /\ decode s = core a (map lower_byte b') /\ exists w, from_chars (map lower_byte b') = Ok w.
Proof.
  intros B NA NE. assert (NL : to_lower s <> s).
  { intros E. destruct (decode s) as [r | e |] eqn:D; [rewrite (decode_lower_ascii s r E D) in NA; discriminate | exact (NE e eq_refl) | exact (C61_lemma s (or_intror E) D)]. }
  assert (UP : to_upper s = s).
  { destruct (list_eq_dec Z.eq_dec (to_upper s) s) as [E | E]; [exact E |]. exfalso. apply (NE EBech32Mixed). unfold decode. apply bytes_eqb_neq in NL, E. rewrite NL, E. reflexivity. }
  unfold to_upper in UP. rewrite NA in UP. cbn [uni_upper CF case_functions] in UP. destruct (map_runes_fixed up s up_scalar B UP) as (rs & Srs & Es & Fix).
  assert (D : decode s <> Err EBech32Sep /\ decode s <> Err EBech32HRPChar) by auto. destruct D as [D1 D2].
  assert (M : negb (bytes_eqb (to_lower s) s) && negb (bytes_eqb (to_upper s) s) = false). { apply andb_false_iff. right. apply negb_false_iff, bytes_eqb_eq. unfold to_upper. rewrite NA. exact UP. }
  assert (P : exists a b, s = a ++ 49 :: b /\ ~ In 49 b /\ a <> [] /\ (6 <= length b)%nat /\ hrp_chars_ok a = true).
  { unfold decode in D1, D2. rewrite M in D1, D2. destruct (last_index s 49) as [pos |] eqn:Pos; [| exfalso; apply D1; reflexivity].
    destruct ((pos <? 1) || (length s <? pos + 7))%nat eqn:Bnd; [exfalso; apply D1; reflexivity |]. apply orb_false_iff in Bnd as [B1 B2]. apply Nat.ltb_ge in B1, B2.
    destruct (hrp_chars_ok (firstn pos s)) eqn:Hc; [| exfalso; apply D2; reflexivity]. apply last_index_inv in Pos as (a & b & E & <- & Nb). exists a, b.
    rewrite E in Hc. rewrite firstn_app, Nat.sub_diag, firstn_all in Hc. cbn [firstn] in Hc. rewrite app_nil_r in Hc. rewrite E, app_length in B2. cbn [length] in B2.
    repeat split; [exact E | exact Nb | destruct a; [cbn in B1; lia | discriminate] | lia | exact Hc]. }
  destruct P as (a & b & E & Nb & A & Lb & HA). clear D1 D2. pose proof HA as HA'. apply hrp_chars_Forall in HA'.
  assert (Aa : Forall (fun c => 0 <= c < 128) (a ++ [49])) by (apply Forall_app; split; [eapply Forall_impl; [| exact HA']; cbn; lia | constructor; [lia | constructor]]).
  destruct (enc_split (a ++ [49]) rs b Aa Srs) as (rb & Er & Eb & Sb); [rewrite <- Es, E, <- app_assoc; reflexivity |]. rewrite <- app_assoc in Er. cbn [app] in Er.
  assert (LOW : to_lower s = map lo a ++ 49 :: enc (map lo rb)).
  { unfold to_lower. rewrite NA. cbn [uni_lower CF case_functions]. rewrite Es, (map_runes_enc lo rs Srs), Er, map_app. cbn [map]. rewrite (lo_ascii 49) by lia. change (lower_byte 49) with 49. rewrite enc_app, enc_cons. f_equal. apply enc_ascii. apply Forall_map.
    apply Forall_app in Aa as [Aa _]. eapply Forall_impl; [| exact Aa]. intros c Hc. cbn beta in *. rewrite lo_ascii by exact Hc. apply lower_128. lia. }
  assert (Dec : decode s = core a (enc (map lo rb))).
  { rewrite E. rewrite (decode_core a b (enc (map lo rb)) Nb); [| rewrite <- E; right; unfold to_upper; rewrite NA; exact UP | exists (map lo a); split; [apply map_length | rewrite <- E; exact LOW] | exact A | exact HA].
    replace (length b <? 6)%nat with false by (symmetry; apply Nat.ltb_ge; exact Lb). reflexivity. }
  assert (W : exists w, from_chars (enc (map lo rb)) = Ok w).
  { destruct (from_chars (enc (map lo rb))) as [w | e |] eqn:X; [exists w; reflexivity | exfalso; apply (NE e); rewrite Dec; unfold core; rewrite X; reflexivity | exfalso; exact (from_chars_no_panic _ X)]. }
  destruct W as [w W]. pose proof (from_chars_inv _ _ W) as (_ & _ & _ & CH).
  assert (LR : Forall (fun r => lo r < 128 /\ lo r <> 105) rb).
  { assert (X : forall c, In c (enc (map lo rb)) -> c < 128 /\ c <> 105).
    { intros c Hc. split; [rewrite Forall_forall in CH; specialize (CH c Hc); cbn in CH; lia |]. intros ->. apply In_nth with (d := 0) in Hc as (k & Lk & Ek). pose proof (from_chars_nth _ _ W k Lk) as NW. rewrite Ek in NW. vm_compute in NW. discriminate. }
    apply Forall_forall. intros r Hr. unfold scalars in Sb. rewrite Forall_forall in Sb. pose proof (lo_scalar r (Sb r Hr)) as SL. destruct (Z.lt_ge_cases (lo r) 128) as [L | L].
    - split; [exact L |]. apply X. unfold enc. apply in_flat_map. exists (lo r). split; [apply in_map; exact Hr |]. unfold encode_rune. rewrite (proj2 (Z.ltb_lt _ _) L). left. reflexivity.
    - exfalso. destruct (enc_high (lo r) SL L) as (x & t & Ex & Hx). assert (x < 128); [| lia]. apply X. unfold enc. apply in_flat_map. exists (lo r). split; [apply in_map; exact Hr |]. rewrite Ex. left. reflexivity. }
  assert (DK : Forall (fun r => 0 <= dekelvin r < 128 /\ lo r = lower_byte (dekelvin r)) rb).
  { apply Forall_forall. intros r Hr. unfold scalars in Sb. rewrite Forall_forall in Sb, LR. destruct (LR r Hr) as [L1 L2]. apply lo_char; auto. }
  set (b' := map dekelvin rb). assert (F : Forall (fun c => 0 <= c < 128) b') by (apply Forall_map; eapply Forall_impl; [| exact DK]; cbn; tauto).
  assert (K : kelvin b b') by (rewrite <- Eb; apply kelvin_runes; [exact Sb | eapply Forall_impl; [| exact DK]; cbn; tauto]).
  assert (EL : enc (map lo rb) = map lower_byte b').
  { unfold b'. rewrite map_map. replace (map lo rb) with (map (fun r => lower_byte (dekelvin r)) rb) by (apply map_ext_in; intros r Hr; rewrite Forall_forall in DK; symmetry; apply DK; exact Hr). apply enc_ascii. apply Forall_map. eapply Forall_impl; [| exact DK]. intros r [R _]. apply lower_128. lia. }
  exists a, b, b'. split; [exact E |]. split; [exact A |]. split; [exact HA |]. split; [exact K |].
  split. { intros X. assert (ascii_only s = true); [| congruence]. apply ascii_only_Forall. rewrite E. apply Forall_app. split; [eapply Forall_impl; [| exact HA']; cbn; lia |]. constructor; [lia |]. rewrite X. eapply Forall_impl; [| exact F]. cbn. lia. }
  split; [exact F |]. split.
  - intros I. apply in_map_iff in I as (r & Er1 & Hr). apply Nb. rewrite <- Eb. unfold enc. apply in_flat_map. exists r. split; [exact Hr |]. unfold dekelvin in Er1. destruct (r =? 0x212A); [discriminate |]. subst r. left. reflexivity.
  - split; [| split; [exact Lb |]; rewrite <- EL; split; [exact Dec | exists w; exact W]].
    apply map_fixed in Fix. rewrite Er in Fix. apply Forall_app in Fix as [Fa Fb]. inversion Fb as [| ? ? _ Fb']; subst. intros c Hc. apply in_app_or in Hc as [Hc | Hc].
    + rewrite Forall_forall in Fa, HA'. apply upper_fixed. rewrite <- up_ascii by (specialize (HA' c Hc); cbn in HA'; lia). apply Fa. exact Hc.
    + apply in_map_iff in Hc as (r & <- & Hr). unfold dekelvin. destruct (Z.eqb_spec r 0x212A) as [_ | NEr]; [unfold is_lower; lia |]. rewrite Forall_forall in Fb', DK. apply upper_fixed.
      destruct (DK r Hr) as [R _]. unfold dekelvin in R. replace (r =? 0x212A) with false in R by lia. rewrite <- up_ascii by exact R. apply Fb'. exact Hr.
Qed.
End Tables.
