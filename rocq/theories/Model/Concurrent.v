(** The calls of Model/Builder.v as sequences of memory accesses, for use from several goroutines.

    A location is a field of a struct of package tx, an element of a []bip32.XPrv, or the spare capacity behind the elements of
    TxBody.Outputs. Inputs, outputs, keys and metadata are values (nothing in the package writes to them after they are handed over). A
    read of a location that the same call has read or written before need not be listed again. Fresh objects (new, append beyond the
    capacity) get numbers from the environment. *)
From Verif.Model Require Import Base Cbor Address Tx Builder.

Inductive loc :=
| LBTx (b : nat) | LBKeys (b : nat) | LBFees (b : nat)                                  (* TxBuilder: tx, xprvs, protocol (tx_builder.go:11-15) *)
| LTBody (t : nat) | LTWit (t : nat) | LTValid (t : nat) | LTMeta (t : nat)             (* Tx: Body, Witness, Valid, Metadata (tx.go:12-18) *)
| LInputs (b : nat) | LOutputs (b : nat) | LFee (b : nat) | LTTL (b : nat) | LAux (b : nat)   (* TxBody (tx_body.go:10-16) *)
| LRoom (b : nat)                                                                       (* the array of Outputs behind its length *)
| LWitness (x : nat)                                                                    (* Witness.Keys (tx_witness_set.go) *)
| LCap (a : nat) | LKey (a i : nat).                                                    (* a key array: its length, its elements *)

Definition val (l : loc) : Type :=
  match l with
  | LBTx _ => nat | LBKeys _ => KeySlice | LBFees _ => LinearFee
  | LTBody _ => nat | LTWit _ => nat | LTValid _ => bool | LTMeta _ => option md
  | LInputs _ => list TxInput | LOutputs _ => list TxOutput | LFee _ => Z | LTTL _ => Z | LAux _ => bytes
  | LRoom _ => list TxOutput
  | LWitness _ => list VKeyWitness
  | LCap _ => nat | LKey _ _ => bytes
  end.
Definition loc_eq_dec (l l' : loc) : {l = l'} + {l <> l'}.
Proof. decide equality; apply Nat.eq_dec. Defined.

Definition mem := forall l, val l.
Definition set (m : mem) (l : loc) (v : val l) : mem :=
  fun l' => match loc_eq_dec l l' with left e => eq_rect l val v l' e | right _ => m l' end.

Inductive prog (A : Type) :=
| Ret (a : A)
| Rd (l : loc) (k : val l -> prog A)
| Wr (l : loc) (v : val l) (p : prog A).
Arguments Ret {A}. Arguments Rd {A}. Arguments Wr {A}.
Fixpoint seq_prog {A B} (p : prog A) (f : A -> prog B) : prog B :=
  match p with
  | Ret a => f a
  | Rd l k => Rd l (fun v => seq_prog (k v) f)
  | Wr l v p => Wr l v (seq_prog p f)
  end.
Notation "'get' x <- l ; p" := (Rd l (fun x => p)) (at level 200, x name, l at level 100, p at level 200).
Notation "'put' l := v ; p" := (Wr l v p) (at level 200, l at level 100, v at level 100, p at level 200).
Notation "'let*' x := p ; q" := (seq_prog p (fun x => q)) (at level 200, x pattern, p at level 100, q at level 200).

Inductive access := R (l : loc) | W (l : loc).
(** A call that runs alone: its answer, the memory it leaves, its accesses. *)
Fixpoint answer {A} (p : prog A) (m : mem) : A :=
  match p with Ret a => a | Rd l k => answer (k (m l)) m | Wr l v p => answer p (set m l v) end.
Fixpoint final {A} (p : prog A) (m : mem) : mem :=
  match p with Ret _ => m | Rd l k => final (k (m l)) m | Wr l v p => final p (set m l v) end.
Fixpoint log {A} (p : prog A) (m : mem) : list access :=
  match p with Ret _ => [] | Rd l k => R l :: log (k (m l)) m | Wr l v p => W l :: log p (set m l v) end.

(** Two calls at once: in each step one of them makes its next access. *)
Inductive both {A B} : prog A -> prog B -> mem -> A -> B -> mem -> Prop :=
| both_done a b m : both (Ret a) (Ret b) m a b m
| both_rd1 l k q m a b m' : both (k (m l)) q m a b m' -> both (Rd l k) q m a b m'
| both_wr1 l v p q m a b m' : both p q (set m l v) a b m' -> both (Wr l v p) q m a b m'
| both_rd2 p l k m a b m' : both p (k (m l)) m a b m' -> both p (Rd l k) m a b m'
| both_wr2 p l v q m a b m' : both p q (set m l v) a b m' -> both p (Wr l v q) m a b m'.

Section Calls.
Context {C : TxCrypto} {MO : MapOrder}.

(** What the runtime decides: the number of the next marshalling, whether Outputs has spare capacity, numbers of fresh objects. *)
Record env := { e_clock : nat; e_room : bool; e_builder : nat; e_tx : nat; e_body : nat; e_wit : nat; e_array : nat }.
Inductive reply := NoReply | BytesReply (r : result bytes) | FeeReply (r : result Z) | MinFeeReply (f : Z) | BuildReply (r : result nat).

Fixpoint read_keys (a i n : nat) : prog (list bytes) :=
  match n with O => Ret [] | S n => get k <- LKey a i; let* ks := read_keys a (S i) n; Ret (k :: ks) end.
Fixpoint write_keys (a i : nat) (l : list bytes) : prog unit :=
  match l with [] => Ret tt | k :: l => put LKey a i := k; write_keys a (S i) l end.
Definition read_body (b : nat) : prog TxBody :=
  get i <- LInputs b; get o <- LOutputs b; get f <- LFee b; get x <- LTTL b; get h <- LAux b;
  Ret {| Inputs := i; Outputs := o; Fee := f; TTL := x; AuxHash := h |}.

(** tx.go:83-93; the metadata and their hash are needed again by the caller: a marshalling that fails ends the call. *)
Definition calc (n t : nat) : prog (result unit) :=
  get m <- LTMeta t;
  match m with
  | None => Ret (Ok tt)
  | Some m =>
      match enc_md (map_order n m) with
      | Ok s => get b <- LTBody t; put LAux b := blake2b256 s; Ret (Ok tt)
      | Err e => Ret (Err e)
      | Panic => Ret Panic
      end
  end.
(** cbor.Marshal(t) *)
Definition marshal (n t : nat) : prog (result bytes) :=
  get b <- LTBody t; let* body := read_body b; get x <- LTWit t; get ws <- LWitness x; get v <- LTValid t; get m <- LTMeta t;
  Ret (tx_marshal n {| Body := body; Witness := ws; Valid := v; Metadata := m |}).
(** tx.go:30-36 *)
Definition bytes_call (n t : nat) : prog (result bytes) :=
  let* r := calc n t;
  match r with Ok _ => marshal (S n) t | Err e => Ret (Err e) | Panic => Ret Panic end.
(** tx.go:48-60 *)
Definition hash_call (n t : nat) : prog (result bytes) :=
  let* r := calc n t;
  match r with
  | Ok _ => get b <- LTBody t; let* body := read_body b; Ret (do s <- body_marshal body; Ok (blake2b256 s))
  | Err e => Ret (Err e)
  | Panic => Ret Panic
  end.
(** tx.go:64-76 *)
Definition fee_call (n : nat) (lfee : LinearFee) (t : nat) : prog (result Z) :=
  let* r := calc n t;
  match r with
  | Ok _ => let* s := marshal (S n) t; Ret (do s <- s; Ok (u64 (TxFeeFixed lfee + u64 (TxFeePerByte lfee * zlen s))))
  | Err e => Ret (Err e)
  | Panic => Ret Panic
  end.
(** tx.go:79-81, 96-107 *)
Definition set_fee_call (t : nat) (f : Z) : prog unit := get b <- LTBody t; put LFee b := f; Ret tt.
Definition add_inputs_call (t : nat) (l : list TxInput) : prog unit :=
  get b <- LTBody t; get i <- LInputs b; put LInputs b := i ++ l; Ret tt.
Definition add_outputs_call (room : bool) (t : nat) (l : list TxOutput) : prog unit :=
  get b <- LTBody t; get o <- LOutputs b;
  if room then put LRoom b := l; put LOutputs b := o ++ l; Ret tt else put LOutputs b := o ++ l; Ret tt.
(** tx_builder.go:81-117: feeTx has a body of its own, with the slices of the builder's; appending to its Outputs fills their spare
    capacity; its Witness is the builder's. That feeTx.Fee reads the appended output back is left out: the call itself has just written it. *)
Definition min_fee_call (n : nat) (room : bool) (b : nat) : prog Z :=
  get t <- LBTx b; get bd <- LTBody t; get i <- LInputs bd; get o <- LOutputs bd; get f <- LFee bd; get x <- LTTL bd;
  get w <- LTWit t; get m <- LTMeta t; get ws <- LWitness w; get lfee <- LBFees b;
  let tx := {| Body := {| Inputs := i; Outputs := o; Fee := f; TTL := x; AuxHash := [] |}; Witness := ws; Valid := true; Metadata := m |} in
  let fill (p : prog Z) := if room && negb (total_inputs (Body tx) =? total_outputs (Body tx))
                           then put LRoom bd := [{| OutAddress := placeholder_addr; OutAmount := placeholder_amount (Body tx) |}]; p else p in
  let done := Ret (fst (min_fee n lfee tx)) in
  match ws with
  | [] => put LWitness w := [placeholder_witness]; fill done
  | _ => fill done
  end.
(** tx_builder.go:50-62 *)
Definition add_change_call (n : nat) (room : bool) (b : nat) (addr : Address) : prog unit :=
  let* f := min_fee_call n room b;
  get t <- LBTx b; get bd <- LTBody t; put LFee bd := f;
  get i <- LInputs bd; get o <- LOutputs bd;
  add_outputs_call room t [{| OutAddress := addr; OutAmount := change_amount {| Inputs := i; Outputs := o; Fee := f; TTL := 0; AuxHash := [] |} |}].
(** tx_builder.go:18-20 *)
Definition sign_call (a' b : nat) (key : bytes) : prog unit :=
  get s <- LBKeys b; get c <- LCap (s_arr s);
  if (s_off s + s_len s <? c)%nat then
    put LKey (s_arr s) (s_off s + s_len s) := key;
    put LBKeys b := {| s_arr := s_arr s; s_off := s_off s; s_len := S (s_len s) |}; Ret tt
  else
    let* ks := read_keys (s_arr s) (s_off s) (s_len s);
    let* _ := write_keys a' 0 (ks ++ [key]);
    put LCap a' := (length ks + 1 + length ks)%nat;
    put LBKeys b := {| s_arr := a'; s_off := 0; s_len := S (length ks) |}; Ret tt.
(** tx_builder.go:23-42 *)
Definition build_call (n x' t' b : nat) : prog (result nat) :=
  get t <- LBTx b;
  let* r := hash_call n t;
  match r with
  | Ok h =>
      get s <- LBKeys b;
      let* ks := read_keys (s_arr s) (s_off s) (s_len s);
      match sign_all ks h with
      | Ok ws =>
          put LWitness x' := ws; put LTWit t := x';
          get bd <- LTBody t; get v <- LTValid t; get m <- LTMeta t;
          put LTBody t' := bd; put LTWit t' := x'; put LTValid t' := v; put LTMeta t' := m; Ret (Ok t')
      | Err e => Ret (Err e)
      | Panic => Ret Panic
      end
  | Err e => Ret (Err e)
  | Panic => Ret Panic
  end.
(** tx_builder.go:130-136, tx.go:21-27, tx_body.go:19-24 *)
Definition new_builder_call (e : env) (fees : LinearFee) (s : KeySlice) : prog unit :=
  put LInputs (e_body e) := []; put LOutputs (e_body e) := []; put LFee (e_body e) := 0; put LTTL (e_body e) := 0; put LAux (e_body e) := [];
  put LWitness (e_wit e) := [];
  put LTBody (e_tx e) := e_body e; put LTWit (e_tx e) := e_wit e; put LTValid (e_tx e) := true; put LTMeta (e_tx e) := None;
  put LBTx (e_builder e) := e_tx e; put LBKeys (e_builder e) := s; put LBFees (e_builder e) := fees; Ret tt.

Definition call (e : env) (o : op) : prog reply :=
  match o with
  | OMakeKeys keys spare => let* _ := write_keys (e_array e) 0 keys; put LCap (e_array e) := (length keys + spare)%nat; Ret NoReply
  | ONewBuilder fees s => let* _ := new_builder_call e fees s; Ret NoReply
  | OSign b k => let* _ := sign_call (e_array e) b k; Ret NoReply
  | OAddInputs t l => let* _ := add_inputs_call t l; Ret NoReply
  | OAddOutputs t l => let* _ := add_outputs_call (e_room e) t l; Ret NoReply
  | OSetFee t f => let* _ := set_fee_call t f; Ret NoReply
  | OSetTTL b x => get t <- LBTx b; get bd <- LTBody t; put LTTL bd := x; Ret NoReply
  | OSetMetadata t m => put LTMeta t := m; Ret NoReply
  | OBytes t => let* r := bytes_call (e_clock e) t; Ret (BytesReply r)
  | OHash t => let* r := hash_call (e_clock e) t; Ret (BytesReply r)
  | OFee t lfee => let* r := fee_call (e_clock e) lfee t; Ret (FeeReply r)
  | OMinFee b => let* f := min_fee_call (e_clock e) (e_room e) b; Ret (MinFeeReply f)
  | OAddChange b addr => let* _ := add_change_call (e_clock e) (e_room e) b addr; Ret NoReply
  | OBuild b => let* r := build_call (e_clock e) (e_wit e) (e_tx e) b; Ret (BuildReply r)
  end.
End Calls.
