(** The test TestTxBuilderRaw of /repo/tx/tx_builder_test.go:117-187 evaluated in the model, with the hash functions of
    Model/HashFns.v: from the entropy to the two golden files. A check that the model behaves like the code, not a proof
    of any property; the goals are aborted after the evaluation, so that nothing of them is kept.
    The 4096 rounds of PBKDF2 (bip32.go:158-162) are left out: [pbkdf2_output] was computed outside. *)
From Coq Require Import ZArith List.
From Verif.Model Require Import Base Hex Bech32 Network Address Tx Builder Bip32 Keys HashFns Wallet.
Import ListNotations. Open Scope Z_scope.
#[local] Existing Instance real_hashes.
#[local] Instance no_unicode : Unicode := {| uni_lower := fun s => s; uni_upper := fun s => s |}.
#[local] Existing Instance go117.
#[local] Instance crypto : TxCrypto := tx_crypto real_hashes.
#[local] Instance order : MapOrder := {| map_order := fun _ m => m |}.

Definition pbkdf2_output : bytes := fst (hex_decode_prefix (str
  "082e61d12e2e902e79a86376b891577cee7570605b8a169467ee2ce62ddf60292e1926a08897c8515cf2099a529e442132b54810166eb4e9806849a3cb71c721afb2b694712a6f2cb0de413db7922cb1bee05d9da03167f7e90727128560c772")).
(** [generateBaseAddress] at 65-90 *)
Definition wallet : result (BaseAddress * bytes) := Eval vm_compute in
  (do root <- NormalizeBytesForce3rd pbkdf2_output; generateBaseAddress MainNet root).
(** 142-178, with testdata/transaction/tx_builder/json/raw_tx.json *)
Definition changeAddress : bytes := str
  "addr_test1qrf96nk9l8snyxd5a2x460rvsjdjkthmesxrq8x2fy5r0f0hnrvhwtnsuxzhvp752vuuxtjptuz7wfgtthedq6lthf6qhf562f".
Definition txHash : bytes := str "fcbc18c64cdf133f33dd319c5105dc7c4972f2d646ae276fbd00cf7f39f8c380".
Definition scenario (addrProc : BaseAddress -> Address) : result bytes :=
  do ' (addr, utxoPrv) <- wallet;
  do changeAddr <- NewAddress changeAddress;
  let w := run empty_world
    [OMakeKeys [] 0; ONewBuilder {| TxFeePerByte := 44; TxFeeFixed := 155381 |} {| s_arr := 0; s_off := 0; s_len := 0 |};
     OAddInputs 0 [NewTxInput txHash 0 10000000]; OAddOutputs 0 [{| OutAddress := addrProc addr; OutAmount := 5000000 |}];
     OSetTTL 0 55267575; OAddChange 0 changeAddr; OSign 0 utxoPrv] in
  match build w 0 with
  | (w, Ok t) => snd (tx_hex 0 (load w t))
  | (_, Err e) => Err e
  | (_, Panic) => Panic
  end.

(** raw_tx_base.golden *)
Goal scenario ABase = Ok (str
  "84a40081825820fcbc18c64cdf133f33dd319c5105dc7c4972f2d646ae276fbd00cf7f39f8c38000018282583901a597e3dc6a2f0b110c31c42abf0965b9705dd3f291c6091a277b36970819b5831950cb576926eaf9e74706ae43d251a7bf8906a9e1a140a31a004c4b4082583900d25d4ec5f9e13219b4ea8d5d3c6c849b2b2efbcc0c301cca492837a5f798d9772e70e1857607d45339c32e415f05e7250b5df2d06bebba741a0049ba73021a000290cd031a034b50f7a10081825820f623f6c21958349e8d3c2c6c7e03eacddefd085f6b26730d50e203b3c36c1ea05840004a496fb23d3fa701fb3beed2564396222397041324904f5eec10ffe7b16b923cd0d2fa69c4395603a7870a8046378265216e4a03b5d6efd501a55a3e58b001f5f6").
Proof. vm_compute. exact eq_refl. Abort.
(** raw_tx_ent.golden *)
Goal scenario (fun a => AEnterprise (ToEnterprise a)) = Ok (str
  "84a40081825820fcbc18c64cdf133f33dd319c5105dc7c4972f2d646ae276fbd00cf7f39f8c38000018282581d61a597e3dc6a2f0b110c31c42abf0965b9705dd3f291c6091a277b36971a004c4b4082583900d25d4ec5f9e13219b4ea8d5d3c6c849b2b2efbcc0c301cca492837a5f798d9772e70e1857607d45339c32e415f05e7250b5df2d06bebba741a0049bf43021a00028bfd031a034b50f7a10081825820f623f6c21958349e8d3c2c6c7e03eacddefd085f6b26730d50e203b3c36c1ea058403e54c3c618143a1b59324e5e79a054f4bece1dec3a26cf574af31521a2bbd11a72bc17852ff791e196a64ee74f8d8aa90755f5f89869aea9937e772e823ed60ff5f6").
Proof. vm_compute. exact eq_refl. Abort.
