(** Model of strings.ToLower and strings.ToUpper (Go standard library, used at bech32.go:33,102-105,123,136) on strings that are not ASCII:
    strings.Map over the runes, with the case tables of package unicode as parameters. *)
From Verif.Model Require Import Base Utf8 Bech32.

(** strings.Map: each rune is decoded, mapped and encoded again; a byte that starts no rune is read as U+FFFD.
    (The mappings considered return no negative value, which would drop the rune.) *)
Fixpoint map_runes_aux (fuel : nat) (f : Z -> Z) (s : bytes) : bytes :=
  match s with
  | [] => []
  | _ => match fuel with
         | O => []
         | S k => let '(r, size) := decode_rune s in encode_rune (f r) ++ map_runes_aux k f (skipn size s)
         end
  end.
Definition map_runes (f : Z -> Z) (s : bytes) : bytes := map_runes_aux (length s) f s.

(** strings.ToLower and strings.ToUpper with unicode.ToLower and unicode.ToUpper given by [lo] and [up] *)
Definition case_functions (lo up : Z -> Z) : Unicode := {| uni_lower := map_runes lo; uni_upper := map_runes up |}.
