(** Known answers of the hash functions of Model/HashFns.v; FIPS 180-4 and RFC 7693 publish those of "abc". *)
From Coq Require Import ZArith List.
From Verif.Model Require Import Base Hex HashFns.
Import ListNotations. Open Scope Z_scope.

Goal hex_encode (SHA256 (str "abc")) = str
  "ba7816bf8f01cfea414140de5dae2223b00361a396177a9cb410ff61f20015ad".
Proof. vm_compute. exact eq_refl. Abort.
Goal hex_encode (SHA256 (repeat 7 119)) = str
  "62f7b490eef6978ea4e047afde0cfd06b542157473c8911d06c787a4de76ef8e".
Proof. vm_compute. exact eq_refl. Abort.
Goal hex_encode (SHA256 (repeat 7 120)) = str
  "96a7c72dd059118dbff67391b9e719c6ea49d8985fbc1641fee363dcdee0f7e6".
Proof. vm_compute. exact eq_refl. Abort.
Goal hex_encode (SHA512 (str "abc")) = str
  "ddaf35a193617abacc417349ae20413112e6fa4e89a97ea20a9eeee64b55d39a2192992a274fc1a836ba3c23a3feebbd454d4423643ce80e2a9ac94fa54ca49f".
Proof. vm_compute. exact eq_refl. Abort.
Goal hex_encode (SHA512 (repeat 7 111)) = str
  "56f694f7f6f83a204d65a428ea0eb51410515b744a809d4149a0d5a84f2e2ba7752b72bbdd94fdfbe4ed060292e11a035b3de5db1cad6e2e8d8a960b2d7193dc".
Proof. vm_compute. exact eq_refl. Abort.
Goal hex_encode (SHA512 (repeat 7 112)) = str
  "9a575c5b522376d98ccf0a6ae515eddc1a77dc7205fe96c4ba253719ed0e82f59d88262a0f4d72dc812fc58769f8871fea534361bf715287dc45cb38130f299a".
Proof. vm_compute. exact eq_refl. Abort.
Goal hex_encode (BLAKE2b 64 (str "abc")) = str
  "ba80a53f981c4d0d6a2797b69f12f6e94c212f14685ac4b74b12bb6fdbffa2d17d87c5392aab792dc252d5de4533cc9518d38aa8dbf1925ab92386edd4009923".
Proof. vm_compute. exact eq_refl. Abort.
Goal hex_encode (BLAKE2b 32 []) = str
  "0e5751c026e543b2e8ab2eb06099daa1d1e5df47778f7787faab45cdf12fe3a8".
Proof. vm_compute. exact eq_refl. Abort.
Goal hex_encode (BLAKE2b 28 (repeat 7 128)) = str
  "625b8fc33958b2b05a749e4781fb715d2645ae2754426c0ac934bb97".
Proof. vm_compute. exact eq_refl. Abort.
Goal hex_encode (BLAKE2b 28 (repeat 7 129)) = str
  "5d12fc16b8bab547fc1b84e3f6c2ce1a65256e36419998b5b8613d2c".
Proof. vm_compute. exact eq_refl. Abort.
Goal hex_encode (BLAKE2b 32 (repeat 7 256)) = str
  "b49f21d17acf05b322ebbc2983fdfcc3fe1f77d80c122dca03806a8163f0416a".
Proof. vm_compute. exact eq_refl. Abort.
Goal hex_encode (BLAKE2b 32 (repeat 7 300)) = str
  "0191c3eb5a6d2128509033fab49cb00a21416257a4c104cff5ee37d156e04db2".
Proof. vm_compute. exact eq_refl. Abort.
Goal hex_encode (HMAC_SHA512 (str "key") (str "message")) = str
  "e477384d7ca229dd1426e64b63ebf2d36ebd6d7e669a6735424e72ea6c01d3f8b56eb39c36d8232f5427999b8d1a3f9cd1128fc69f4d75b434216810fa367e98".
Proof. vm_compute. exact eq_refl. Abort.
Goal hex_encode (HMAC_SHA512 (repeat 1 128) (repeat 7 300)) = str
  "9978be7570943cb44af6eb2b375a7a32c12c6e5a102309dbc87aca7bae50fff15f5ab56ae71612a15302bc6061038cf7b7c85f126407e5320047d7914c462d56".
Proof. vm_compute. exact eq_refl. Abort.
Goal hex_encode (HMAC_SHA512 (repeat 1 130) (repeat 7 300)) = str
  "7f6c24335e70494e52a5a7ab7482287b4cabba9b773170b71c4d16714b463531c43c1712b4560d476e3533febce56e5952901477cf45e65690da545b169775e4".
Proof. vm_compute. exact eq_refl. Abort.
Goal hex_encode (PBKDF2_SHA512 (str "pw") (str "salt") 1 64) = str
  "9bbcdf4f0b03e358d9a6f311a95c29f8df1dfac308b5b4734bb2a52f712fd3f3380a648301abd4796bbc873c3c18c2d7ee5ce68818d1eeb631a59ba9208eb3a5".
Proof. vm_compute. exact eq_refl. Abort.
Goal hex_encode (PBKDF2_SHA512 (str "pw") (str "salt") 10 96) = str
  "129f6f4fd2da1fb479c6e0d59c388b5caeef044000622bfe31e8aceef9ab6fb59c5e4b68e8ecae6c8bdb5abdc7ab61ca6bfb28f0ea91d282cc67955a886dcfcee5f11e9bcebb46296a22cc9de97c049c2cb13c91d00ee17851ba710091255f25".
Proof. vm_compute. exact eq_refl. Abort.
