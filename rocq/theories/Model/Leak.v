(** What the code that handles private keys shows through its control flow and its memory accesses: the functions of edwards25519.go and
    bip32.go again, each with the list of its branches, of the array elements and table entries it touches, of the lengths it hashes
    and of its calls to straight-line functions. Straight-line functions (field arithmetic, point formulas, ScReduce, ScMulAdd,
    encodings) have no branch and no variable index: in the model they are programs for the register machine of Limb.v, which has no
    jump, or loops with constant bounds (FeInvert); a call to one is a single event. Line numbers as in Edwards.v and Bip32.v. *)
From Coq Require Import String.
From Verif.Model Require Import Base Limb EdwardsTable EdwardsCode Edwards Bip32.
Open Scope Z_scope. Open Scope list_scope.

Inductive event :=
| EBranch (taken : bool)
| EIndex (i : nat)
| ETable (row column : Z)
| EHash (name : string) (lengths : list nat)
| ECall (name : string).

(** A computation with its events *)
Definition tr (A : Type) : Type := A * list event.
Definition ret {A} (a : A) : tr A := (a, []).
Definition tbind {A B} (x : tr A) (f : A -> tr B) : tr B := let y := f (fst x) in (fst y, snd x ++ snd y).
Definition emit (e : event) : tr unit := (tt, [e]).
Definition call {A} (name : string) (a : A) : tr A := (a, [ECall name]).
Notation "'run' x <- a ; b" := (tbind a (fun x => b)) (at level 200, x name, a at level 100, b at level 200).
Notation "a ;; b" := (tbind a (fun _ => b)) (at level 199, right associativity).
(** One that may panic: what follows a panic does not happen. *)
Definition rbind {A B} (x : tr (result A)) (f : A -> tr (result B)) : tr (result B) :=
  match fst x with
  | Ok a => let y := f a in (fst y, snd x ++ snd y)
  | Err e => (Err e, snd x)
  | Panic => (Panic, snd x)
  end.
Notation "'try' x <- a ; b" := (rbind a (fun x => b)) (at level 200, x name, a at level 100, b at level 200).
Notation "'try' ' p <- a ; b" := (rbind a (fun p => b)) (at level 200, p pattern, a at level 100, b at level 200).
Definition lift {A} (r : result A) : tr (result A) := (r, []).
Fixpoint tfold {A B} (f : A -> B -> tr A) (l : list B) (a : A) : tr A :=
  match l with [] => ret a | x :: l => run a <- f a x; tfold f l a end.

(** 949-963: every iteration reads an entry of the row. *)
Definition selectPoint_t (pos : nat) (b : Z) : tr PreComputedGroupElement :=
  let row := nth pos base_table [] in
  let bNegative := negative b in
  let bAbs := i32 (b - i32 (Z.shiftl (Z.land (i32 (- bNegative)) b) 1)) in
  run t <- tfold (fun t i => emit (ETable (Z.of_nat pos) (Z.of_nat i));; call "CMove" (Pre_CMove t (nth i row pre0) (equal bAbs (i32 (Z.of_nat i + 1))))) (seq 0 8) Pre_Zero;
  let minusT := mkPre (yMinusX t) (yPlusX t) (FeNeg (xy2d t)) in
  call "CMove" (Pre_CMove t minusT bNegative).
(** 993-998, 1010-1014 *)
Definition base_step_t (e : list Z) (h : ExtendedGroupElement) (i : nat) : tr ExtendedGroupElement :=
  emit (EIndex i);;
  run t <- selectPoint_t (i / 2) (get e i);
  run r <- call "geMixedAdd" (geMixedAdd h t);
  call "ToExtended" (Comp_ToExtended r).
(** 974-977 *)
Definition nibbles_t (a : bytes) : tr (list Z) :=
  (nibbles a, flat_map (fun i => [EIndex i; EIndex (2 * i); EIndex (2 * i + 1)]) (seq 0 (length a))).
(** 981-988 *)
Fixpoint signed_digits_t (i : nat) (e : list Z) (carry : Z) : tr (list Z) :=
  match e with
  | [] => ret []
  | [x] => emit (EIndex i);; ret [i8 (x + carry)]
  | x :: r =>
      emit (EIndex i);;
      let x := i8 (x + carry) in
      let carry := Z.shiftr (i8 (x + 8)) 4 in
      run r <- signed_digits_t (S i) r carry;
      ret (i8 (x - i8 (Z.shiftl carry 4)) :: r)
  end.
(** 970-1015 *)
Definition GeScalarMultBase_t (a : bytes) : tr ExtendedGroupElement :=
  run e <- nibbles_t a;
  run e <- signed_digits_t 0 e 0;
  run h <- tfold (base_step_t e) odd_indices Ext_Zero;
  run h <- call "four doublings" (
    let s := Comp_ToProjective (Ext_Double h) in
    let s := Comp_ToProjective (Proj_Double s) in
    let s := Comp_ToProjective (Proj_Double s) in
    Comp_ToExtended (Proj_Double s));
  tfold (base_step_t e) even_indices h.

(** 909-928: the branches on the digits and the entries of the two tables they choose *)
Definition vartime_step_t (Ai : list CachedGroupElement) (da db : Z) (r : ProjectiveGroupElement) : tr ProjectiveGroupElement :=
  (vartime_step Ai da db r,
   EBranch (0 <? da) :: (if 0 <? da then [ETable 0 (Z.quot da 2)] else EBranch (da <? 0) :: (if da <? 0 then [ETable 0 (Z.quot (- da) 2)] else [])) ++
   EBranch (0 <? db) :: (if 0 <? db then [ETable 1 (Z.quot db 2)] else EBranch (db <? 0) :: (if db <? 0 then [ETable 1 (Z.quot (- db) 2)] else []))).
Fixpoint vartime_loop_t (n : nat) (Ai : list CachedGroupElement) (a b : list Z) (r : ProjectiveGroupElement) : tr ProjectiveGroupElement :=
  match n with O => ret r | S i => run r <- vartime_step_t Ai (get a i) (get b i) r; vartime_loop_t i Ai a b r end.
(** 879-929; the events of slide and of the search for the first digit are left out. *)
Definition GeDoubleScalarMultVartime_t (a : bytes) (A : ExtendedGroupElement) (b : bytes) : tr ProjectiveGroupElement :=
  let aSlide := slide a in
  let bSlide := slide b in
  let A2 := Comp_ToExtended (Ext_Double A) in
  let Ai := odd_multiples 7 A2 (Ext_ToCached A) in
  vartime_loop_t (top_index 256 aSlide bSlide) Ai aSlide bSlide Proj_Zero.

Section Leak.
Context {H : Hashes}.

(** bip32.go:175-184 *)
Definition MakePublicKey_t (extendedSecret : bytes) : tr (result bytes) :=
  try s <- lift (slice extendedSecret 0 32);
  let key := copy_at (repeat 0 PublicKeyLen) 0 PublicKeyLen s in
  run h <- GeScalarMultBase_t key;
  call "ToBytes" (Ok (Ext_ToBytes h)).
(** bip32.go:69-96 *)
Fixpoint add_loop_t (is : list nat) (x : bytes) (y : nat -> result Z) (carry : Z) : tr (result (bytes * Z)) :=
  match is with
  | [] => lift (Ok ([], carry))
  | i :: is =>
      emit (EIndex i);;
      try xi <- lift (index x i);
      try yi <- lift (y i);
      let r := u16 (u16 (u16 xi + yi) + carry) in
      try ' (out, carry) <- add_loop_t is x y (Z.shiftr r 8);
      lift (Ok (u8 (Z.land r 255) :: out, carry))
  end.
Definition add28mul8_t (x y : bytes) : tr (result bytes) :=
  try ' (lo, carry) <- add_loop_t (seq 0 28) x (fun i => do yi <- index y i; Ok (u16 (Z.shiftl (u16 yi) 3))) 0;
  try ' (hi, _) <- add_loop_t (seq 28 4) x (fun _ => Ok 0) carry;
  lift (Ok (lo ++ hi)).
Definition add256bits_t (x y : bytes) : tr (result bytes) :=
  try ' (out, _) <- add_loop_t (seq 0 32) x (fun i => do yi <- index y i; Ok (u16 yi)) 0;
  lift (Ok out).
(** bip32.go:102-120 *)
Definition derive_messages_t (key : bytes) (index : Z) : tr (result (bytes * bytes)) :=
  let serializedIndex := put_uint32 index in
  emit (EBranch (isHardened index));;
  if isHardened index then
    try k <- lift (extendedPrivateKey key);
    lift (Ok ([0] ++ k ++ serializedIndex, [1] ++ k ++ serializedIndex))
  else
    try k <- lift (extendedPrivateKey key);
    try pk <- MakePublicKey_t k;
    lift (Ok ([2] ++ pk ++ serializedIndex, [3] ++ pk ++ serializedIndex)).
Definition hmac_t (key msg : bytes) : tr bytes := (hmac_sha512 key msg, [EHash "hmac" [length key; length msg]]).
Definition sha_t (msg : bytes) : tr bytes := (sha512 msg, [EHash "sha512" [length msg]]).
(** bip32.go:98-138 *)
Definition Derive_t (key : bytes) (index : Z) : tr (result bytes) :=
  try cc <- lift (XPrv_ChainCode key);
  try ' (zmsg, imsg) <- derive_messages_t key index;
  run zout <- hmac_t cc zmsg;
  run iout <- hmac_t cc imsg;
  try kl <- lift (slice key 0 32);
  try zl <- lift (slice zout 0 32);
  try left <- add28mul8_t kl zl;
  try kr <- lift (slice key 32 64);
  try zr <- lift (slice zout 32 64);
  try right <- add256bits_t kr zr;
  try c <- lift (slice iout 32 (length iout));
  lift (Ok (left ++ right ++ c)).
(** bip32.go:57-59, 140-146 *)
Definition Public_t (key : bytes) : tr (result bytes) :=
  try k <- lift (extendedPrivateKey key);
  try pk <- MakePublicKey_t k;
  try cc <- lift (XPrv_ChainCode key);
  lift (Ok (pk ++ cc)).
(** bip32.go:198-236 *)
Definition Sign_t (prv message : bytes) : tr (result bytes) :=
  try publicKey <- MakePublicKey_t prv;
  try kr <- lift (slice prv 32 64);
  run h <- sha_t (kr ++ message);
  try hashOutput <- lift (slice h 0 64);
  let hashFull := copy_at (repeat 0 64) 0 64 hashOutput in
  run nonce <- call "ScReduce" (ScReduce hashFull);
  let signature := copy_at (repeat 0 SignatureLength) 0 64 (getFilledArray SignatureLength 0) in
  run p <- GeScalarMultBase_t nonce;
  run r <- call "ToBytes" (Ext_ToBytes p);
  let signature := copy_at signature 0 32 r in
  let signature := copy_at signature 32 64 publicKey in
  run hramTmp <- sha_t (signature ++ message);
  let hram := copy_at (repeat 0 64) 0 64 hramTmp in
  run hramReduced <- call "ScReduce" (ScReduce hram);
  try kl <- lift (slice prv 0 32);
  let b := copy_at (repeat 0 32) 0 32 kl in
  run s <- call "ScMulAdd" (ScMulAdd hramReduced b nonce);
  lift (Ok (copy_at signature 32 64 s)).
End Leak.
