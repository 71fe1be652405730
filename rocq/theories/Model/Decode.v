(** Model of /repo/examples/address/simple_decode/main.go for any text in place of the literal. *)
From Verif.Model Require Import Base Bech32 Address.
Open Scope Z_scope.

(** main.go:13 *)
Definition decode_literal : bytes := str "addr1vxvfjdcr6nd3y65mkqx5gfvgwjarvkt527h35wq3g7a447chmv4zj".
(** main.go:13-27: the arguments of log.Println; an error of NewAddress is printed by log.Fatal and ends the program. *)
Definition simple_decode `{Unicode} `{Runtime} (text : bytes) : result (list bytes) :=
  do addr <- NewAddress text;
  match addr with
  | ABase _ => do s <- addr_string addr; Ok [str "Base Addr:"; s]
  | AEnterprise _ => do s <- addr_string addr; Ok [str "Enterprise Address:"; s]
  | _ => Ok [str "Not baseAddress"]
  end.
