(** A service that lists unspent outputs page by page. *)
From Verif.Model Require Import Base Node Queries.

(** [outputs s a]: what network s holds at address text a; [per_page] outputs on each page, pages counted from 1, the first one by default. *)
Definition page {A} (per_page i : nat) (l : list A) : list A := firstn per_page (skipn ((i - 1) * per_page) l).
Definition paged (outputs : Server -> bytes -> list ApiUTXO) (per_page : nat) (q : UtxoQuery) : option (list ApiUTXO) :=
  Some (page per_page (match uq_page q with Some i => i | None => 1%nat end) (outputs (uq_server q) (uq_address q))).
