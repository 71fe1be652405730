(** Programs with pointers: the states they reach, the same call made with values, and what a write through a pointer is meant to do. *)
From Verif.Model Require Import Base Cbor Address Tx Builder Pointers.

Section Pointers.
Context {C : TxCrypto} {MO : MapOrder}.

Definition p_reachable (pw : PWorld) : Prop := exists l, pvalid_run p_empty l /\ pw = prun p_empty l.
(** Writes through pointers the caller kept. *)
Definition is_write (o : pop) : Prop := match o with PSetInput _ _ | PSetOutput _ _ | PSetKey _ _ => True | _ => False end.
(** The call of Builder.v that gets the values in place of the pointers; creating a struct or key is none. *)
Definition value_op (pw : PWorld) (o : pop) : option op :=
  match o with
  | PMakeKeys keys spare => Some (OMakeKeys (map (fun r => nth r (p_keys pw) []) keys) spare)
  | PNewBuilder fees keys => Some (ONewBuilder fees keys)
  | PSign b key => Some (OSign b (nth key (p_keys pw) []))
  | PAddInputs t l => Some (OAddInputs t (map (input_at pw) l))
  | PAddOutputs t l => Some (OAddOutputs t (map (output_at pw) l))
  | PAddChange b addr => Some (OAddChange b addr)
  | PCall o => Some o
  | _ => None
  end.
(** The pointers in transaction t. *)
Definition ins_of (pw : PWorld) (t : nat) : list nat := p_ins (nth (p_body pw t) (p_bodies pw) nil_pbody).
Definition outs_of (pw : PWorld) (t : nat) : list nat := p_outs (nth (p_body pw t) (p_bodies pw) nil_pbody).
(** The keys of builder b. *)
Definition keys_of (pw : PWorld) (b : nat) : list (option nat) :=
  let s := b_keys (nth b (p_builders pw) nil_builder) in firstn (s_len s) (skipn (s_off s) (nth (s_arr s) (p_arrays pw) [])).
End Pointers.
