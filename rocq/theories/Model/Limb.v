(** Straight-line integer code, as in crypto/edwards25519/edwards25519.go: local variables are numbered registers
    in a list, and each instruction stands for one Go statement, or one of the file's recurring statement groups.
    The semantics is parametrised by the wrapping function of each integer width, so that the Go semantics
    ([go_step], two's complement wrap-around after every operation) and exact integer arithmetic can be compared. *)
From Verif.Model Require Import Base.

Inductive width := W32 | W64.
Definition wrapping := width -> Z -> Z.
(** Go's int32 and int64 arithmetic. *)
Definition go_wrap : wrapping := fun t => match t with W32 => i32 | W64 => i64 end.

(** Expressions: registers, literals, sums, products and constant multiples at a given width. *)
Inductive ex :=
| EV (r : nat)
| EK (z : Z)
| EAdd (a b : ex)                 (* int64 a + b *)
| EMul (a b : ex)                 (* int64 a * b *)
| EMul32 (a b : ex).              (* int64(a * b) with the product computed in int32 *)

Inductive instr :=
| ISet (r : nat) (e : ex)                         (* r = e *)
| ICarry (t : width) (rnd : bool) (x y : nat) (k m : Z)
    (* c = (x + (1 << (k-1))) >> k   or, without rounding,   c = x >> k
       y += c   (y += c * m when m <> 1)
       x -= c << k *)
| ITop (t : width) (x : nat) (k : Z)              (* c = x >> k; x -= c << k *)
| IFold (x : nat) (l : list (bool * nat * Z)).    (* for (sub, y, m) in l: y += x * m, or y -= x * m when sub; then x = 0 *)

Definition get (st : list Z) (r : nat) : Z := nth r st 0.
Fixpoint put (st : list Z) (r : nat) (v : Z) : list Z :=
  match st, r with [] , _ => [] | _ :: s, O => v :: s | a :: s, S r' => a :: put s r' v end.

Fixpoint ev (w : wrapping) (st : list Z) (e : ex) : Z :=
  match e with
  | EV r => get st r
  | EK z => z
  | EAdd a b => w W64 (ev w st a + ev w st b)
  | EMul a b => w W64 (ev w st a * ev w st b)
  | EMul32 a b => w W32 (ev w st a * ev w st b)
  end.

Definition acc (w : wrapping) (v : Z) (st : list Z) (f : bool * nat * Z) : list Z :=
  let '(sub, y, m) := f in
  put st y (if sub then w W64 (get st y - w W64 (v * m)) else w W64 (get st y + w W64 (v * m))).

Definition step (w : wrapping) (st : list Z) (i : instr) : list Z :=
  match i with
  | ISet r e => put st r (ev w st e)
  | ICarry t rnd x y k m =>
      let c := Z.shiftr (if rnd then w t (get st x + 2 ^ (k - 1)) else get st x) k in
      let st1 := put st y (w t (get st y + w t (c * m))) in
      put st1 x (w t (get st1 x - w t (Z.shiftl c k)))
  | ITop t x k => let c := Z.shiftr (get st x) k in put st x (w t (get st x - w t (Z.shiftl c k)))
  | IFold x l => put (fold_left (acc w (get st x)) l st) x 0
  end.
Definition run (w : wrapping) (p : list instr) (st : list Z) : list Z := fold_left (step w) p st.
