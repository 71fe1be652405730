(** Transaction metadata of the ledger (alonzo.cddl: metadata, transaction_metadatum), independent of the model. *)
From Coq Require Import ZArith List.
From Verif.Spec Require Import CborSpec Utf8Spec.
Import ListNotations. Open Scope Z_scope.

(** transaction_metadatum = { * transaction_metadatum => transaction_metadatum } / [ * transaction_metadatum ] / int / bytes .size (0..64) / text .size (0..64) *)
Inductive metadatum : item -> Prop :=
| mm_uint n : 0 <= n < 2 ^ 64 -> metadatum (Uint n)
| mm_nint n : 0 <= n < 2 ^ 64 -> metadatum (Nint n)
| mm_bytes b : (length b <= 64)%nat -> metadatum (Bstr b)
| mm_text s : (length s <= 64)%nat -> utf8_text s -> metadatum (Tstr s)
| mm_array l : Forall metadatum l -> metadatum (Arr l)
| mm_map l : Forall (fun p => metadatum (fst p) /\ metadatum (snd p)) l -> metadatum (Map l).
(** metadata = { * transaction_metadatum_label => transaction_metadatum }, the labels being 64-bit numbers *)
Definition metadata_map (it : item) : Prop :=
  exists l, it = Map l /\ Forall (fun p => (exists n, fst p = Uint n /\ 0 <= n < 2 ^ 64) /\ metadatum (snd p)) l.
