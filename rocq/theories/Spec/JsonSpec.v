(** JSON texts (RFC 8259, RFC 3629) and what a document says about unsigned fields, independent of the model's scanner. *)
From Verif.Model Require Import Base Json.
From Verif.Spec Require Import Utf8Spec.
Open Scope Z_scope.

(** ** Grammar (RFC 8259, sections 2 to 7), on bytes. Inside strings any byte from 0x80 on is allowed here; [string_of] below asks for UTF-8. *)
Definition ws (s : list Z) : Prop := forall c, In c s -> c = 32 \/ c = 9 \/ c = 10 \/ c = 13.
Definition digits (s : list Z) : Prop := s <> [] /\ forall c, In c s -> 48 <= c <= 57.
Definition int_part (s : list Z) : Prop := s = [48] \/ (digits s /\ hd 48 s <> 48).
Definition frac_part (s : list Z) : Prop := s = [] \/ exists d, s = 46 :: d /\ digits d.
Definition exp_part (s : list Z) : Prop :=
  s = [] \/ exists e sg d, s = e :: sg ++ d /\ (e = 101 \/ e = 69) /\ (sg = [] \/ sg = [43] \/ sg = [45]) /\ digits d.
Definition number (s : list Z) : Prop :=
  exists sg i f e, s = sg ++ i ++ f ++ e /\ (sg = [] \/ sg = [45]) /\ int_part i /\ frac_part f /\ exp_part e.

Definition hex (c : Z) : Prop := 48 <= c <= 57 \/ 97 <= c <= 102 \/ 65 <= c <= 70.
(** escape characters with their meaning *)
Definition escapes : list (Z * Z) := [(34, 34); (92, 92); (47, 47); (98, 8); (102, 12); (110, 10); (114, 13); (116, 9)].
Inductive chars : list Z -> Prop :=
| c_nil : chars []
| c_plain c r : 32 <= c -> c <> 34 -> c <> 92 -> chars r -> chars (c :: r)
| c_esc e x r : In (e, x) escapes -> chars r -> chars (92 :: e :: r)
| c_uni h1 h2 h3 h4 r : hex h1 -> hex h2 -> hex h3 -> hex h4 -> chars r -> chars (92 :: 117 :: h1 :: h2 :: h3 :: h4 :: r).

Inductive value : jvalue -> list Z -> Prop :=
| v_null : value JNull (str "null")
| v_true : value (JBool true) (str "true")
| v_false : value (JBool false) (str "false")
| v_num t : number t -> value (JNum t) t
| v_str x : chars x -> value (JStr x) (34 :: x ++ [34])
| v_arr0 w : ws w -> value (JArr []) (91 :: w ++ [93])
| v_arr l s : elements l s -> value (JArr l) (91 :: s ++ [93])
| v_obj0 w : ws w -> value (JObj []) (123 :: w ++ [125])
| v_obj m s : members m s -> value (JObj m) (123 :: s ++ [125])
with elements : list jvalue -> list Z -> Prop :=
| e_one v w1 s w2 : ws w1 -> value v s -> ws w2 -> elements [v] (w1 ++ s ++ w2)
| e_more v w1 s w2 l t : ws w1 -> value v s -> ws w2 -> elements l t -> elements (v :: l) (w1 ++ s ++ w2 ++ 44 :: t)
with members : list (list Z * jvalue) -> list Z -> Prop :=
| m_one k v w1 w2 w3 s w4 : ws w1 -> chars k -> ws w2 -> ws w3 -> value v s -> ws w4 ->
    members [(k, v)] (w1 ++ 34 :: k ++ 34 :: w2 ++ 58 :: w3 ++ s ++ w4)
| m_more k v w1 w2 w3 s w4 m t : ws w1 -> chars k -> ws w2 -> ws w3 -> value v s -> ws w4 -> members m t ->
    members ((k, v) :: m) (w1 ++ 34 :: k ++ 34 :: w2 ++ 58 :: w3 ++ s ++ w4 ++ 44 :: t).
Definition json_text (v : jvalue) (s : list Z) : Prop := exists w1 t w2, s = w1 ++ t ++ w2 /\ ws w1 /\ value v t /\ ws w2.

Fixpoint depth (v : jvalue) : Z :=
  match v with
  | JArr l => 1 + fold_right Z.max 0 (map depth l)
  | JObj m => 1 + fold_right Z.max 0 (map (fun kv => depth (snd kv)) m)
  | _ => 0
  end.

(** ** Strings as code points *)
Inductive hexval : Z -> Z -> Prop :=
| h_dec n : 0 <= n < 10 -> hexval (48 + n) n
| h_low n : 10 <= n < 16 -> hexval (87 + n) n
| h_up n : 10 <= n < 16 -> hexval (55 + n) n.
Definition hex4 (s : list Z) (n : Z) : Prop :=
  exists h1 h2 h3 h4 a b c d, s = [h1; h2; h3; h4] /\ hexval h1 a /\ hexval h2 b /\ hexval h3 c /\ hexval h4 d /\ n = ((a * 16 + b) * 16 + c) * 16 + d.
(** What the text between the quotes says. Lone surrogates say nothing. *)
Inductive string_of : list Z -> list Z -> Prop :=
| s_nil : string_of [] []
| s_plain c b r l : scalar c -> 32 <= c -> c <> 34 -> c <> 92 -> utf8 c b -> string_of r l -> string_of (b ++ r) (c :: l)
| s_esc e x r l : In (e, x) escapes -> string_of r l -> string_of (92 :: e :: r) (x :: l)
| s_uni h n r l : hex4 h n -> scalar n -> string_of r l -> string_of (92 :: 117 :: h ++ r) (n :: l)
| s_pair h n h' n' r l : hex4 h n -> 55296 <= n < 56320 -> hex4 h' n' -> 56320 <= n' < 57344 -> string_of r l ->
    string_of (92 :: 117 :: h ++ 92 :: 117 :: h' ++ r) (65536 + (n - 55296) * 1024 + (n' - 56320) :: l).

(** ** Fields *)
(** Unicode simple case folding, as far as it leads to ASCII letters: A to Z, the long s and the Kelvin sign *)
Definition fold_char (c : Z) : Z :=
  if (65 <=? c) && (c <=? 90) then c + 32 else if c =? 383 then 115 else if c =? 8490 then 107 else c.
Definition same_name (name : list Z) (k : list Z) : Prop := map fold_char k = map fold_char name.
Definition names (name : list Z) (raw : list Z) : Prop := exists l, string_of raw l /\ same_name name l.

(** A number that fits an unsigned field of so many bits: written without sign, fraction and exponent. *)
Definition uint_value (t : list Z) : Z := fold_left (fun a c => 10 * a + (c - 48)) t 0.
Definition fits (bits : Z) (v : jvalue) (n : Z) : Prop := exists t, v = JNum t /\ digits t /\ uint_value t = n /\ n < 2 ^ bits.

(** [field_from bits name old m n]: among the members called [name], the last that is not null gives [n]; without one, [n] is [old].
    Nothing is said when a member called [name] is neither null nor a fitting number. *)
Inductive field_from (bits : Z) (name : list Z) (old : Z) : list (list Z * jvalue) -> Z -> Prop :=
| f_none : field_from bits name old [] old
| f_set m k v n n0 : field_from bits name old m n0 -> names name k -> fits bits v n -> field_from bits name old (m ++ [(k, v)]) n
| f_null m k n : field_from bits name old m n -> names name k -> field_from bits name old (m ++ [(k, JNull)]) n
| f_other m k v n : field_from bits name old m n -> ~ names name k -> field_from bits name old (m ++ [(k, v)]) n.
Definition field (bits : Z) (name : list Z) (m : list (list Z * jvalue)) (n : Z) : Prop := field_from bits name 0 m n.

(** [gathered name m x]: [x] are the members of all objects called [name]; each member called [name] is an object or null. *)
Inductive gathered (name : list Z) : list (list Z * jvalue) -> list (list Z * jvalue) -> Prop :=
| g_none : gathered name [] []
| g_obj m k x acc : gathered name m acc -> names name k -> gathered name (m ++ [(k, JObj x)]) (acc ++ x)
| g_null m k acc : gathered name m acc -> names name k -> gathered name (m ++ [(k, JNull)]) acc
| g_other m k v acc : gathered name m acc -> ~ names name k -> gathered name (m ++ [(k, v)]) acc.

(** The protocol parameters a document states, and the network tip; absent ones are 0. A document [null] states nothing. *)
Definition object_of (v : jvalue) (m : list (list Z * jvalue)) : Prop := v = JObj m \/ (v = JNull /\ m = []).
Definition states_protocol (v : jvalue) (p : Node.Protocol) : Prop :=
  exists m ver, object_of v m /\ gathered (str "protocolVersion") m ver /\
    field 64 (str "txFeePerByte") m (Node.p_fee_per_byte p) /\ field 64 (str "txFeeFixed") m (Node.p_fee_fixed p) /\
    field 64 (str "maxTxSize") m (Node.p_max_tx_size p) /\ field 64 (str "minUTxOValue") m (Node.p_min_utxo p) /\
    field 8 (str "major") ver (Node.p_major p) /\ field 8 (str "minor") ver (Node.p_minor p).
Definition states_tip (v : jvalue) (t : NetworkTip) : Prop :=
  exists m, object_of v m /\ field 64 (str "slot") m (t_slot t) /\ field 64 (str "epoch") m (t_epoch t) /\ field 64 (str "block") m (t_block t).
