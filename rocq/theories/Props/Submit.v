(** C111: the calls SubmitTx of the command-line backend makes to the operating system. *)
From Verif.Model Require Import Base Bech32 Hex Cbor Network Address Tx Node Json Submit.
From Verif.Spec Require Import CborSpec HexSpec AddressSpec TxSpec MdSpec NodeSpec JsonSpec Utf8Spec FsSpec.
From Verif.Proofs Require Import Util HexFacts CborFacts CborParse TxFacts NodeFacts JsonFacts JsonKeys JsonDecode.
From Verif Require Props.Tx.
From Verif.Props Require Import Json.
Open Scope Z_scope.

(** Which way a call goes; each line is one return statement. *)
Definition submit_outcome `{TxCrypto} `{MapOrder} (S : System) (path : bytes) (net : NetworkInfo) (clock : nat) (t : Tx) (calls : list syscall) (hash : bytes) (err : option CliError) : Prop :=
  (exists e, snd (tx_hex clock t) = Err e /\ calls = [] /\ hash = [] /\ err = Some (CliEncoding e)) \/
  exists h, snd (tx_hex clock t) = Ok h /\
    ((sys_temp S = None /\ calls = [] /\ hash = [] /\ err = Some CliTemp) \/
     exists tmp, sys_temp S = Some tmp /\
       ((exists n, sys_write S (json_envelope h) = Some n /\ calls = [SCreate tmp; SWrite tmp (firstn n (json_envelope h)); SRemove tmp] /\ hash = [] /\ err = Some CliWrite) \/
        (sys_write S (json_envelope h) = None /\ let before := [SCreate tmp; SWrite tmp (json_envelope h)] in
          ((sys_exec S before path (submit_args net tmp) = None /\ calls = before ++ [SExec path (submit_args net tmp); SRemove tmp] /\ hash = [] /\ err = Some CliExec) \/
           (sys_exec S before path (submit_args net tmp) = Some hash /\ calls = before ++ [SExec path (submit_args net tmp); SClose tmp; SRemove tmp] /\ err = if sys_close S then None else Some CliClose))))).
Lemma submit_cases (C : TxCrypto) (MO : MapOrder) S path net clock t calls hash err : cli_submit S path net clock t = Ok (calls, (hash, err)) <-> submit_outcome S path net clock t calls hash err.
Proof.
  unfold cli_submit, submit_outcome, execCommand. fold (submit_args net). split.
  - intros E. destruct (snd (tx_hex clock t)) as [h | e |] eqn:TH; [right; exists h; split; [reflexivity |] | left; exists e | discriminate E].
    + destruct (sys_temp S) as [tmp |]; [right; exists tmp; split; [reflexivity |] | left; injection E as <- <- <-; auto].
      destruct (sys_write S (json_envelope h)) as [n |]; [left; exists n; injection E as <- <- <-; auto | right; split; [reflexivity |]]. cbv zeta. unfold submit_args.
      destruct (sys_exec S _ path _) as [o |]; [right | left]; injection E as <- <- <-; auto.
    + injection E as <- <- <-. auto.
  - cbv zeta. intros [(e & -> & -> & -> & ->) | (h & -> & [(-> & -> & -> & ->) | (tmp & -> & [(n & -> & -> & -> & ->) | (-> & [(X & -> & -> & ->) | (X & -> & ->)])])])]; try reflexivity; unfold submit_args in X; rewrite X; reflexivity.
Qed.

(** Membership in the inductive predicates, read off the last call. *)
Lemma snoc_inj {A} (l l' : list A) a a' : l ++ [a] = l' ++ [a'] -> l = l' /\ a = a'. Proof. apply app_inj_tail. Qed.
Lemma present_snoc f l c : present f (l ++ [c]) <-> c = SCreate f \/ (present f l /\ c <> SRemove f).
Proof.
  split; [|intros [-> | [P N]]; [apply present_create | apply present_keep; assumption]]. intros P. remember (l ++ [c]) as m eqn:M. destruct P as [l' | l' c' P N]; apply snoc_inj in M as [<- <-]; auto.
Qed.
Lemma present_nil f : ~ present f []. Proof. intros P. remember [] as m eqn:M. destruct P as [l | l c P N]; symmetry in M; exact (app_cons_not_nil _ _ _ M). Qed.
Lemma open_snoc f l c : is_open f (l ++ [c]) <-> c = SCreate f \/ (is_open f l /\ c <> SClose f).
Proof.
  split; [|intros [-> | [P N]]; [apply open_create | apply open_keep; assumption]]. intros P. remember (l ++ [c]) as m eqn:M. destruct P as [l' | l' c' P N]; apply snoc_inj in M as [<- <-]; auto.
Qed.
Lemma open_nil f : ~ is_open f []. Proof. intros P. remember [] as m eqn:M. destruct P as [l | l c P N]; symmetry in M; exact (app_cons_not_nil _ _ _ M). Qed.

(** Whatever happens, no file is left in the directory, and no file but the temporary one is touched. *)
Theorem C111_removed : forall (C : TxCrypto) (MO : MapOrder) S path net clock t calls hash err, cli_submit S path net clock t = Ok (calls, (hash, err)) ->
  (forall f, ~ present f calls) /\ (forall c f, In c calls -> concerns c f -> sys_temp S = Some f).
Proof.
  intros C MO S path net clock t calls hash err E. apply submit_cases in E.
  assert (R : forall f tmp l, (forall c, In c l -> c = SCreate f -> f = tmp) -> ~ present f (l ++ [SRemove tmp])).
  { intros f tmp l Q P. apply present_snoc in P as [P | [P N]]; [discriminate P |]. assert (f <> tmp) by (intros ->; apply N; reflexivity). apply H. clear N H. revert P. induction l as [|c l IH] using rev_ind; intros P; [destruct (present_nil f P) |].
    apply present_snoc in P as [-> | [P _]]; [apply (Q (SCreate f)); [apply in_app_iff; right; left; reflexivity | reflexivity] |]. apply IH; [|exact P]. intros c' I. apply Q. apply in_app_iff. left. exact I. }
  destruct E as [(e & _ & -> & _) | (h & _ & [(_ & -> & _) | (tmp & T & [(n & _ & -> & _) | (_ & [(_ & -> & _) | (_ & -> & _)])])])].
  1, 2: split; [apply present_nil | intros c f []].
  all: rewrite T; split; [intros f | intros c f I Q; cbn in I; repeat (destruct I as [<- | I]; [cbn in Q; first [subst; reflexivity | contradiction] |]); contradiction].
  - apply (R f tmp [SCreate tmp; SWrite tmp (firstn n (json_envelope h))]). intros c I ->. cbn in I. destruct I as [I | [I | []]]; [injection I as <-; reflexivity | discriminate I].
  - apply (R f tmp ([SCreate tmp; SWrite tmp (json_envelope h)] ++ [SExec path (submit_args net tmp)])). intros c I ->. cbn in I. destruct I as [I | [I | [I | []]]]; [injection I as <-; reflexivity | discriminate I ..].
  - apply (R f tmp ([SCreate tmp; SWrite tmp (json_envelope h)] ++ [SExec path (submit_args net tmp); SClose tmp])). intros c I ->. cbn in I. destruct I as [I | [I | [I | [I | []]]]]; [injection I as <-; reflexivity | discriminate I ..].
Qed.
Print Assumptions C111_removed.

(** The command is run exactly when the transaction can be serialised and the file made and written; at that moment the file is there and holds
    the whole envelope, and it is run once. *)
Theorem C111_command : forall (C : TxCrypto) (MO : MapOrder) S path net clock t calls hash err before p args, cli_submit S path net clock t = Ok (calls, (hash, err)) ->
  (runs calls before p args <-> exists h tmp, snd (tx_hex clock t) = Ok h /\ sys_temp S = Some tmp /\ sys_write S (json_envelope h) = None /\
     p = path /\ args = submit_args net tmp /\ before = [SCreate tmp; SWrite tmp (json_envelope h)]).
Proof.
  intros C MO S path net clock t calls hash err before p args E. apply submit_cases in E.
  assert (N : forall l, (forall q a, ~ In (SExec q a) l) -> ~ runs l before p args) by (intros l Q (after & ->); apply (Q p args); apply in_app_iff; right; left; reflexivity).
  assert (O : forall b q a post, (forall q a, ~ In (SExec q a) b) -> (forall q a, ~ In (SExec q a) post) -> runs (b ++ SExec q a :: post) before p args -> p = q /\ args = a /\ before = b).
  { intros b q a post. clear N E. revert before. induction b as [|c b IH]; intros before NB NP (after & Q).
    - destruct before as [|c before]; cbn [app] in Q; inversion Q; subst; [auto |]. destruct (NP p args). apply in_app_iff. right. left. reflexivity.
    - destruct before as [|c' before]; cbn [app] in Q; inversion Q as [[Q1 Q2]]; subst; [destruct (NB p args); left; reflexivity |]. destruct (IH before) as (-> & -> & ->); [intros x y I; apply (NB x y); right; exact I | exact NP | exists after; exact Q2 | auto]. }
  destruct E as [(e & X & -> & _) | (h & X & [(T & -> & _) | (tmp & T & [(n & W & -> & _) | (W & D)])])].
  - split; [intros R; exfalso; revert R; apply N; intros q a [] | intros (h & tmp & Y & _); rewrite X in Y; discriminate Y].
  - split; [intros R; exfalso; revert R; apply N; intros q a [] | intros (h' & tmp & _ & Y & _); rewrite T in Y; discriminate Y].
  - split; [intros R; exfalso; revert R; apply N; intros q a I; cbn in I; destruct I as [I | [I | [I | []]]]; discriminate I |].
    intros (h' & tmp' & Y & _ & Z & _). rewrite X in Y. injection Y as <-. rewrite W in Z. discriminate Z.
  - cbv zeta in D. assert (D' : exists post, calls = [SCreate tmp; SWrite tmp (json_envelope h)] ++ SExec path (submit_args net tmp) :: post /\ forall q a, ~ In (SExec q a) post).
    { destruct D as [(_ & -> & _) | (_ & -> & _)]; eexists; (split; [reflexivity |]); intros q a I; cbn in I; [destruct I as [I | []] | destruct I as [I | [I | []]]]; discriminate I. }
    destruct D' as (post & -> & NP). split.
    + intros R. apply O in R as (-> & -> & ->); [|intros q a I; cbn in I; destruct I as [I | [I | []]]; discriminate I | exact NP]. exists h, tmp. repeat split; assumption.
    + intros (h' & tmp' & Y & T' & _ & -> & -> & ->). rewrite X in Y. injection Y as <-. rewrite T in T'. injection T' as <-. exists post. reflexivity.
Qed.
Print Assumptions C111_command.
Theorem C111_file : forall (C : TxCrypto) (MO : MapOrder) S path net clock t calls hash err before p args, cli_submit S path net clock t = Ok (calls, (hash, err)) -> runs calls before p args ->
  exists h tmp, snd (tx_hex clock t) = Ok h /\ args = submit_args net tmp /\ present tmp before /\ holds tmp (json_envelope h) before.
Proof.
  intros C MO S path net clock t calls hash err before p args E R. apply (C111_command C MO S path net clock t calls hash err before p args E) in R as (h & tmp & X & _ & _ & _ & -> & ->). exists h, tmp. split; [exact X |]. split; [reflexivity |].
  split; [apply (present_keep tmp [SCreate tmp]); [apply (present_create tmp []) | discriminate] | apply (holds_write tmp [SCreate tmp] [] (json_envelope h)); apply (holds_create tmp [])].
Qed.
Print Assumptions C111_file.

(** What is returned. No error: the command's standard output, as it is, is passed off as the transaction id. *)
Theorem C111_result : forall (C : TxCrypto) (MO : MapOrder) S path net clock t calls hash err, cli_submit S path net clock t = Ok (calls, (hash, err)) ->
  (err = None <-> sys_close S = true /\ exists before p args, runs calls before p args /\ sys_exec S before p args = Some hash) /\
  (err = Some CliClose <-> sys_close S = false /\ exists before p args, runs calls before p args /\ sys_exec S before p args = Some hash).
Proof.
  intros C MO S path net clock t calls hash err E. pose proof (fun b p a => C111_command C MO S path net clock t calls hash err b p a E) as CM. apply submit_cases in E.
  destruct E as [(e & X & -> & -> & ->) | (h & X & [(T & -> & -> & ->) | (tmp & T & [(n & W & -> & -> & ->) | (W & [(Y & -> & -> & ->) | (Y & -> & ->)])])])].
  1, 2, 3, 4: split; (split; [discriminate |]); intros (_ & b & p & a & R & Z); apply CM in R as (h' & tmp' & X' & T' & W' & -> & -> & ->); rewrite X in X'; try discriminate X'; injection X' as <-; rewrite T in T'; try discriminate T'; injection T' as <-; rewrite W in W'; try discriminate W'; rewrite Y in Z; discriminate Z.
  assert (R : exists before p args, runs ([SCreate tmp; SWrite tmp (json_envelope h)] ++ [SExec path (submit_args net tmp); SClose tmp; SRemove tmp]) before p args /\ sys_exec S before p args = Some hash).
  { exists [SCreate tmp; SWrite tmp (json_envelope h)], path, (submit_args net tmp). split; [eexists; reflexivity | exact Y]. }
  destruct (sys_close S); split; split; try discriminate; try (intros [Q _]; discriminate Q); intros; try reflexivity; split; try reflexivity; exact R.
Qed.
Print Assumptions C111_result.

(** When the descriptor is given back: exactly when no file was made, or the command ran and succeeded. *)
Theorem C111_closed : forall (C : TxCrypto) (MO : MapOrder) S path net clock t calls hash err, cli_submit S path net clock t = Ok (calls, (hash, err)) ->
  ((forall f, ~ is_open f calls) <-> calls = [] \/ exists before p args, runs calls before p args /\ sys_exec S before p args <> None).
Proof.
  intros C MO S path net clock t calls hash err E. pose proof (fun b p a => C111_command C MO S path net clock t calls hash err b p a E) as CM. apply submit_cases in E.
  destruct E as [(e & X & -> & -> & ->) | (h & X & [(T & -> & -> & ->) | (tmp & T & [(n & W & -> & -> & ->) | (W & [(Y & -> & -> & ->) | (Y & -> & ->)])])])].
  1, 2: split; [left; reflexivity | intros _; apply open_nil].
  - split; [intros N; exfalso; apply (N tmp) | intros [Q | (b & p & a & R & _)]; [discriminate Q |]].
    + apply (open_keep tmp [SCreate tmp; _]); [apply (open_keep tmp [SCreate tmp]); [apply (open_create tmp []) |] |]; discriminate.
    + apply CM in R as (h' & tmp' & X' & T' & W' & _). rewrite X in X'. injection X' as <-. rewrite W in W'. discriminate W'.
  - split; [intros N; exfalso; apply (N tmp) | intros [Q | (b & p & a & R & Z)]; [discriminate Q |]].
    + apply (open_keep tmp [SCreate tmp; _; _]); [apply (open_keep tmp [SCreate tmp; _]); [apply (open_keep tmp [SCreate tmp]); [apply (open_create tmp []) |] |] |]; discriminate.
    + apply CM in R as (h' & tmp' & X' & T' & W' & -> & -> & ->). rewrite X in X'. injection X' as <-. rewrite T in T'. injection T' as <-. destruct (Z Y).
  - split; [|intros _ f O]. 
    + intros _. right. exists [SCreate tmp; SWrite tmp (json_envelope h)], path, (submit_args net tmp). split; [eexists; reflexivity | rewrite Y; discriminate].
    + change (is_open f (((([] ++ [SCreate tmp]) ++ [SWrite tmp (json_envelope h)]) ++ [SExec path (submit_args net tmp)]) ++ [SClose tmp] ++ [SRemove tmp])) in O. rewrite app_assoc in O.
      apply open_snoc in O as [O | [O _]]; [discriminate O |]. apply open_snoc in O as [O | [O N]]; [discriminate O |]. apply open_snoc in O as [O | [O _]]; [discriminate O |]. apply open_snoc in O as [O | [O _]]; [discriminate O |].
      apply open_snoc in O as [O | [O _]]; [|destruct (open_nil f O)]. injection O as ->. apply N. reflexivity.
Qed.
Print Assumptions C111_closed.
(** Refuted: every transaction whose submission the command refuses leaves a descriptor open. *)
Theorem C111_refuted : forall (C : TxCrypto) (MO : MapOrder) S path net clock t h tmp, snd (tx_hex clock t) = Ok h -> sys_temp S = Some tmp -> (forall b p a, sys_exec S b p a = None) ->
  exists calls err, cli_submit S path net clock t = Ok (calls, ([], Some err)) /\ is_open tmp calls.
Proof.
  intros C MO S path net clock t h tmp X T F. unfold cli_submit, execCommand. rewrite X, T. destruct (sys_write S (json_envelope h)) as [n |].
  - eexists. eexists. split; [reflexivity |]. apply (open_keep tmp [SCreate tmp; _]); [apply (open_keep tmp [SCreate tmp]); [apply (open_create tmp []) |] |]; discriminate.
  - rewrite F. eexists. eexists. split; [reflexivity |]. apply (open_keep tmp [SCreate tmp; _; _]); [apply (open_keep tmp [SCreate tmp; _]); [apply (open_keep tmp [SCreate tmp]); [apply (open_create tmp []) |] |] |]; discriminate.
Qed.
Print Assumptions C111_refuted.
(** Refuted: an error does not mean that the transaction was not submitted; nor is the text returned the transaction's id. *)
Theorem C111_error_refuted : forall (C : TxCrypto) (MO : MapOrder) path net clock t h out, snd (tx_hex clock t) = Ok h -> exists S calls before p args,
  cli_submit S path net clock t = Ok (calls, (out, Some CliClose)) /\ runs calls before p args /\ sys_exec S before p args = Some out.
Proof.
  intros C MO path net clock t h out X. exists {| sys_temp := Some []; sys_write := fun _ => None; sys_exec := fun _ _ _ => Some out; sys_close := false |}. unfold cli_submit, execCommand. rewrite X. cbn [sys_temp sys_write sys_exec sys_close].
  eexists. exists [SCreate []; SWrite [] (json_envelope h)], path, (submit_args net []). split; [reflexivity |]. split; [|reflexivity]. exists [SClose []; SRemove []]. reflexivity.
Qed.
Print Assumptions C111_error_refuted.
(** A system whose command reads the file it is pointed at: it answers exactly when the file has been written; and one where the disk is full. *)
Definition C111_system (full close : bool) : System := {| sys_temp := Some (str "/tmp/gada-tx-1"); sys_write := fun d => if full then Some 10%nat else None;
  sys_exec := fun calls _ _ => match calls with [SCreate _; SWrite _ (_ :: _)] => Some (str "Transaction successfully submitted.") | _ => None end; sys_close := close |}.
Example C111_example : exists calls full, @cli_submit Props.Tx.ex_crypto Props.Tx.id_order (C111_system false true) (str "cardano-cli") MainNet 0 Props.Tx.ex_tx = Ok (calls, (str "Transaction successfully submitted.", None)) /\ length calls = 5%nat /\
  @cli_submit Props.Tx.ex_crypto Props.Tx.id_order (C111_system true true) (str "cardano-cli") MainNet 0 Props.Tx.ex_tx = Ok (full, ([], Some CliWrite)) /\ length full = 3%nat /\
  (forall b p a, sys_exec {| sys_temp := Some []; sys_write := fun _ => None; sys_exec := fun _ _ _ => None; sys_close := true |} b p a = None) /\ exists h, snd (@tx_hex Props.Tx.ex_crypto Props.Tx.id_order 0 Props.Tx.ex_tx) = Ok h.
Proof. eexists. eexists. split; [vm_compute; reflexivity |]. split; [reflexivity |]. split; [vm_compute; reflexivity |]. split; [reflexivity |]. split; [reflexivity |]. eexists. vm_compute. reflexivity. Qed.
