(** Property theorems proved in ApiSha.v (written by tools/gen_props.py). *)
From Coq Require Import Znumtheory.
From Verif Require Import Word MScalar MDer MApi MDrbg WP ScalarAcc ScalarMul Spec Fp Bits ScalarOps ScalarRed ScalarMore ScalarBits Denote ApiScalar ApiPub ApiDer ApiDrbg ApiSha.

(** The hash of the model is the one FIPS 180-4 defines: bit functions, constants from the primes, schedule, rounds, chaining and padding. *)
Theorem C69_sha256_fips : forall m d, bytes m -> (fips_sha256 m d <-> d = sha256 m).
Proof. exact C69_sha256_fips_pf. Qed.
Print Assumptions C69_sha256_fips.

(** The keyed hash of the model is HMAC of RFC 2104 over it. *)
Theorem C69_hmac_rfc2104 : forall key m d, bytes key -> bytes m -> (rfc2104 key m d <-> d = hmac sha256 key m).
Proof. exact C69_hmac_rfc2104_pf. Qed.
Print Assumptions C69_hmac_rfc2104.

Example C69_sha256_fips_example : bytes [97; 98; 99] /\ fips_sha256 [97; 98; 99] (be_bytes 32 0xba7816bf8f01cfea414140de5dae2223b00361a396177a9cb410ff61f20015ad).
Proof. exact C69_sha256_fips_example_pf. Qed.

Example C69_hmac_rfc2104_example : bytes [74; 101; 102; 101] /\ rfc2104 [74; 101; 102; 101]
  [119; 104; 97; 116; 32; 100; 111; 32; 121; 97; 32; 119; 97; 110; 116; 32; 102; 111; 114; 32; 110; 111; 116; 104; 105; 110; 103; 63]
  (be_bytes 32 0x5bdcc146bf60754e6a042426089575c75a003f089d2739839dec58b964ec3843).
Proof. exact C69_hmac_rfc2104_example_pf. Qed.
