(** Any number of goroutines, each with a sequence of calls of /repo/tx/tx.go:30-107 and /repo/tx/tx_builder.go:18-117 (Concurrent.v).
    As there, memory is sequentially consistent, which Go promises for programs without data races. *)
From Verif.Model Require Import Base Cbor Address Tx Builder Concurrent.

(** Each step is one access of one of the goroutines; [runs ps m rs m']: they start with memory m and end with replies rs and memory m'. *)
Inductive runs {A} : list (prog A) -> mem -> list A -> mem -> Prop :=
| runs_done rs m : runs (map Ret rs) m rs m
| runs_rd ps qs l k m rs m' : runs (ps ++ k (m l) :: qs) m rs m' -> runs (ps ++ Rd l k :: qs) m rs m'
| runs_wr ps qs l v p m rs m' : runs (ps ++ p :: qs) (set m l v) rs m' -> runs (ps ++ Wr l v p :: qs) m rs m'.

(** A goroutine that makes these calls; each comes with what the runtime decides for it. *)
Fixpoint calls {C : TxCrypto} {MO : MapOrder} (l : list (env * op)) : prog (list reply) :=
  match l with
  | [] => Ret []
  | (e, o) :: l => let* r := call e o; let* rs := calls l; Ret (r :: rs)
  end.
