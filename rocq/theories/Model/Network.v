(** Model of /repo/network/network.go. *)
From Verif.Model Require Import Base.

(** network.go:3-6 *)
Record NetworkInfo := { NetworkId : Z; ProtocolMagic : Z }.

(** network.go:8-13 *)
Definition TestNet : NetworkInfo := {| NetworkId := 0; ProtocolMagic := 1097911063 |}.

(** network.go:15-20 *)
Definition MainNet : NetworkInfo := {| NetworkId := 1; ProtocolMagic := 764824073 |}.

(** The Go zero value. *)
Definition ZeroNet : NetworkInfo := {| NetworkId := 0; ProtocolMagic := 0 |}.

(** Struct equality [==]. *)
Definition net_eqb (a b : NetworkInfo) : bool :=
  (NetworkId a =? NetworkId b) && (ProtocolMagic a =? ProtocolMagic b).
