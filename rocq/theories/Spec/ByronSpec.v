(** Byron addresses: the CBOR items they are made of. Independent of the model. *)
From Coq Require Import ZArith List.
From Verif.Spec Require Import CborSpec CrcSpec Utf8Spec.
Import ListNotations. Open Scope Z_scope.

(** Attribute map: key 1 the derivation payload, key 2 the network. *)
Definition byron_inner (hash : list Z) (attrs : list (item * item)) (tag : Z) : item :=
  Arr [Bstr hash; Map attrs; Uint tag].
Definition byron_outer (raw : list Z) : item := Arr [Tag 24 (Bstr raw); Uint (crc_spec raw)].

(** The attributes of an address with a payload (none if empty) and an optional network number. *)
Definition byron_attrs (payload : list Z) (network : option Z) : list (item * item) :=
  (match payload with [] => [] | _ => [(Uint 1, Bstr payload)] end) ++
  (match network with None => [] | Some n => [(Uint 2, Uint n)] end).

(** Cardano writes the network magic as a byte string holding a CBOR number. *)
Definition byron_attrs_cardano (payload : list Z) (magic : Z) : list (item * item) :=
  (match payload with [] => [] | _ => [(Uint 1, Bstr payload)] end) ++ [(Uint 2, Bstr (cbor (Uint magic)))].

(** The tags 0 to 3 have a meaning of their own. *)
Definition other_tag (t : Z) : Prop := ~ 0 <= t <= 3.
(** Items that a lenient decoder reads as the unsigned number n: numbers, null and undefined (as zero), bignums, each
    possibly tagged (a number also as a time, tag 1); and items it reads as a byte string. *)
Inductive reads_uint : item -> Z -> Prop :=
| ru_uint n : reads_uint (Uint n) n
| ru_nil s : s = 22 \/ s = 23 -> reads_uint (Simple s) 0
| ru_time n : reads_uint (Tag 1 (Uint n)) n
| ru_big b : reads_uint (Tag 2 (Bstr b)) (value256 b)
| ru_tag t i n : other_tag t -> reads_uint i n -> reads_uint (Tag t i) n.
Inductive reads_bytes : item -> list Z -> Prop :=
| rb_bytes b : reads_bytes (Bstr b) b
| rb_nil s : s = 22 \/ s = 23 -> reads_bytes (Simple s) []
| rb_arr l b : Forall2 (fun i n => reads_uint i n /\ n < 256) l b -> reads_bytes (Arr l) b
| rb_big b : reads_bytes (Tag 2 (Bstr b)) b
| rb_tag t i b : other_tag t -> reads_bytes i b -> reads_bytes (Tag t i) b.
(** An optional byte: nothing if null or undefined. *)
Inductive reads_opt : item -> option Z -> Prop :=
| ro_nil s : s = 22 \/ s = 23 -> reads_opt (Simple s) None
| ro_some i n : (forall s, i = Simple s -> s <> 22 /\ s <> 23) -> reads_uint i n -> n < 256 -> reads_opt i (Some n).
(** Tags around an item; the tag of self-described CBOR around an item. *)
Inductive tagged (i : item) : item -> Prop :=
| tagged_0 : tagged i i
| tagged_S t j : other_tag t -> tagged i j -> tagged i (Tag t j).
Inductive described (i : item) : item -> Prop :=
| described_0 : described i i
| described_S j : described i j -> described i (Tag 55799 j).

(** Attributes: keys are numbers and texts. A key names the attribute k as a number, as the text of its digit, and as
    the negative number k - 2^64. The first key naming an attribute counts. *)
Definition names (k : Z) (i : item) : Prop := i = Uint k \/ i = Nint (2 ^ 64 - 1 - k) \/ i = Tstr [48 + k].
Definition key (i : item) : Prop := (exists n, i = Uint n \/ i = Nint n) \/ exists s, i = Tstr s /\ utf8_text s.
Inductive first (k : Z) : list (item * item) -> option item -> Prop :=
| first_none : first k [] None
| first_here i v r : names k i -> first k ((i, v) :: r) (Some v)
| first_later i v r o : ~ names k i -> first k r o -> first k ((i, v) :: r) o.
Inductive reads_attrs : item -> list Z -> option Z -> Prop :=
| ra_nil s : s = 22 \/ s = 23 -> reads_attrs (Simple s) [] None
| ra_map l vp vn p n : Forall (fun kv => key (fst kv)) l -> first 1 l vp -> first 2 l vn ->
    match vp with Some v => reads_bytes v p | None => p = [] end ->
    match vn with Some v => reads_opt v n | None => n = None end -> reads_attrs (Map l) p n.

(** What is accepted as a Byron address, bytes after it (and after the item in its byte string) being ignored: an
    array of a byte string with tag 24 and its CRC-32, the byte string holding hash, attributes and the number 0. *)
Definition byron_reads (d hash payload : list Z) (network : option Z) : Prop :=
  exists outer e tail vraw vtag raw vsum inner e' tail' vh va va' vt,
    d = e ++ tail /\ enc outer e /\ readable outer /\ outer = Arr [vtag; vsum] /\
    described (Tag 24 vraw) vtag /\ described (Bstr raw) vraw /\ reads_uint vsum (crc_spec raw) /\
    raw = e' ++ tail' /\ enc inner e' /\ readable inner /\ tagged (Arr [vh; va; vt]) inner /\
    reads_bytes vh hash /\ length hash = 28%nat /\ tagged va' va /\ reads_attrs va' payload network /\ reads_uint vt 0.
