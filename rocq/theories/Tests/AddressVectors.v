(** The scenarios of /repo/address/address_test.go:29-91 evaluated in the model: a check that the model
    behaves like the code, not a proof of any property. *)
From Verif.Model Require Import Base Bech32 Hex Base58 Cbor Network Address.

#[local] Instance no_unicode : Unicode := {| uni_lower := fun s => s; uni_upper := fun s => s |}.
#[local] Existing Instance go117.

Definition same (r : result Address) (s : bytes) (n : NetworkInfo) (h : bytes) : bool :=
  match r with
  | Ok a => match addr_string a with
            | Ok t => bytes_eqb t s && net_eqb (addr_network a) n && bytes_eqb (hex_encode (addr_bytes a)) h
            | _ => false end
  | _ => false
  end.

Definition scenario (s : bytes) (h : bytes) (n : NetworkInfo) : bool :=
  same (NewAddress s) s n h && same (NewAddressFromHex h) s n h.

Example base_vector : scenario
  (str "addr_test1qqe92py4mf3ffrtmjuwjpzu6jwlw0zmr50h8ey67qcehlmty5kcrvg2ds9fkpg32t535l9v6lkgaj5cunufgvz5f7snql2fawd")
  (str "0032550495da62948d7b971d208b9a93bee78b63a3ee7c935e06337fed64a5b036214d815360a22a5d234f959afd91d9531c9f12860a89f426")
  TestNet = true.
Proof. vm_compute. reflexivity. Qed.

Example base_bad_checksum :
  NewAddress (str "addr_test1qqe92py4mf3ffrtmjuwjpzu6jwlw0zmr50h8ey67qcehlmty5kcrvg2ds9fkpg32t535l9")
  = Err EBech32Checksum.
Proof. vm_compute. reflexivity. Qed.

Example stake_vector : scenario
  (str "stake1u9w862n8jtje5fuc32l20mqqvwaslpveja6paugnnezz99shxsy55")
  (str "e15c7d2a6792e59a27988abea7ec0063bb0f859997741ef1139e442296") MainNet = true.
Proof. vm_compute. reflexivity. Qed.

Example stake_bad_checksum :
  NewAddress (str "stake1u9w862n8jtje5fuc32l20mqqvwaslpveja6paugnnezz99shxsy") = Err EBech32Checksum.
Proof. vm_compute. reflexivity. Qed.

Example enterprise_vector : scenario
  (str "addr1vy2qrg3afcprp3lklswy7lux7srcdcd7vghu3md4f0qtd9cszg2k2")
  (str "611401a23d4e0230c7f6fc1c4f7f86f40786e1be622fc8edb54bc0b697") MainNet = true.
Proof. vm_compute. reflexivity. Qed.

Example yoroi_vector : scenario
  (str "Ae2tdPwUPEZFRbyhz3cpfC2CumGzNkFBN2L42rcUc2yjQpEkxDbkPodpMAi")
  (str "82d818582183581cba970ad36654d8dd8f74274b733452ddeab9a62a397746be3c42ccdda0001a9026da5b") MainNet = true.
Proof. vm_compute. reflexivity. Qed.

Example daedalus_vector : scenario
  (str "DdzFFzCqrhsf6zq32tPdqzCqL4JxNSw5aDkiKQp9x8PWUHBXNhR6UNtEeBthFGuf7oSGT2uLKYjoDTyJochABBPCjs6VN4V8eVk7acbe")
  (str "82d818584283581c0a1e1b7f0e38e24fbe2e30af04c7c7aab10d838cf2bd24b89e81eb12a101581e581c9b1771bd305e4a6a5a37e8a962ed18fb0a339639e039355feecaa7ff001ab79e49ad")
  MainNet = true.
Proof. vm_compute. reflexivity. Qed.
