(** Property theorems proved in ApiDrbg.v (written by tools/gen_props.py). *)
From Verif Require Import Word MField MScalar MGroup MEcmult MEcdsa MApi MDrbg WP FieldMul FieldNorm Spec Fp Bits FieldOps FieldCodec ScalarAcc ScalarMul ScalarOps ScalarRed ScalarMore ScalarBits Denote Unred Curve Group Chain Order VectorCert Jac JacOps Table Wnaf WnafC Ecmult Lift Gen Key Ctx ApiScalar ApiPub ApiGroup Ecdsa ApiEcdsa ApiDrbg.

(** The i-th block drawn by [sign] is the i-th candidate of RFC 6979, and there is exactly one. *)
Theorem C69_candidates : forall mac x h1 i k, mac32 mac ->
  (rfc_candidate mac x h1 i k <-> k = be_val (sign_drbg mac (int2octets x) (bits2octets h1) i)).
Proof. exact C69_candidates_pf. Qed.
Print Assumptions C69_candidates.

(** Signing a 32-byte hash with a parsed key: the nonce is the one RFC 6979 prescribes, and r, s are as there but for the replacement of s by n - s
    (debug builds: always; release builds: unless the nonce's point has x = n, in which case r is 0). *)
Theorem C69_sign_rfc6979 : forall dbg mac fuel ctx bk h1 k m g id, gen_ctx ctx -> mac32 mac -> length bk = 32%nat -> bytes bk -> length h1 = 32%nat -> bytes h1 ->
  sk_parse dbg bk = Some (Ok k) -> msg_parse dbg h1 = Some m -> sign dbg (sign_drbg mac) fuel ctx m k = Done (g, id) -> dbg = true \/ s_is_zero (sig_r g) = false ->
  exists i t r s, rfc_nonce mac (be_val bk) h1 i t /\ signature_for (be_val bk) (bits2int h1 mod n) t r s id /\ g = Sig (scalar_of r) (scalar_of s).
Proof. exact C69_sign_rfc6979_pf. Qed.
Print Assumptions C69_sign_rfc6979.

(** Conversely [sign] returns the RFC 6979 signature, if no earlier candidate meets x >= n (probability below 2^-127). *)
Theorem C69_rfc6979_signs : forall dbg mac fuel ctx bk h1 k m i t, gen_ctx ctx -> mac32 mac -> length bk = 32%nat -> bytes bk -> length h1 = 32%nat -> bytes h1 ->
  sk_parse dbg bk = Some (Ok k) -> msg_parse dbg h1 = Some m -> rfc_nonce mac (be_val bk) h1 i t -> (i < fuel)%nat ->
  (forall j t', (j <= i)%nat -> rfc_candidate mac (be_val bk) h1 j t' -> ~ wraps t') ->
  exists r s id, signature_for (be_val bk) (bits2int h1 mod n) t r s id /\ sign dbg (sign_drbg mac) fuel ctx m k = Done (Sig (scalar_of r) (scalar_of s), id).
Proof. exact C69_rfc6979_signs_pf. Qed.
Print Assumptions C69_rfc6979_signs.

(** SHA-256 gives 32 bytes for every message, HMAC-SHA-256 for every key and message: so the theorems apply to the generator the library uses. *)
Theorem C69_hmac_sha256 : (forall m, length (sha256 m) = 32%nat /\ bytes (sha256 m)) /\ mac32 (hmac sha256).
Proof. exact C69_hmac_sha256_pf. Qed.
Print Assumptions C69_hmac_sha256.

(** Published values: SHA-256 of "abc" (FIPS 180-4) and of a message of two blocks; RFC 4231 test case 2. *)
Example C69_hmac_sha256_example :
  be_val (sha256 [97; 98; 99]) = 0xba7816bf8f01cfea414140de5dae2223b00361a396177a9cb410ff61f20015ad /\
  be_val (sha256 [97; 98; 99; 100; 98; 99; 100; 101; 99; 100; 101; 102; 100; 101; 102; 103; 101; 102; 103; 104; 102; 103; 104; 105; 103; 104; 105; 106; 104; 105; 106; 107;
    105; 106; 107; 108; 106; 107; 108; 109; 107; 108; 109; 110; 108; 109; 110; 111; 109; 110; 111; 112; 110; 111; 112; 113]) = 0x248d6a61d20638b8e5c026930c3e6039a33ce45964ff2167f6ecedd419db06c1 /\
  be_val (hmac sha256 [74; 101; 102; 101] [119; 104; 97; 116; 32; 100; 111; 32; 121; 97; 32; 119; 97; 110; 116; 32; 102; 111; 114; 32; 110; 111; 116; 104; 105; 110; 103; 63])
    = 0x5bdcc146bf60754e6a042426089575c75a003f089d2739839dec58b964ec3843.
Proof. exact C69_hmac_sha256_example_pf. Qed.

(** The message "Satoshi Nakamoto" with the keys 1 and n - 1: the published signatures, from every build and every correct context. *)
Theorem C69_vectors : forall dbg ctx, gen_ctx ctx ->
  sign dbg (sign_drbg (hmac sha256)) 1 ctx (scalar_of satoshi_z) (scalar_of 1) =
    Done (Sig (scalar_of 0x934b1ea10a4b3c1757e2b0c017d0b6143ce3c9a7e6a4a49860d7a6ab210ee3d8) (scalar_of 0x2442ce9d2b916064108014783e923ec36b49743e2ffa1c4496f01a512aafd9e5), 1) /\
  sign dbg (sign_drbg (hmac sha256)) 1 ctx (scalar_of satoshi_z) (scalar_of (n - 1)) =
    Done (Sig (scalar_of 0xfd567d121db66e382991534ada77a6bd3106f0a1098c231e47993447cd6af2d0) (scalar_of 0x6b39cd0eb1bc8603e159ef5c20a5c8ad685a45b06ce9bebed3f153d10d93bed5), 0).
Proof. exact C69_vectors_pf. Qed.
Print Assumptions C69_vectors.

Example C69_vectors_example : exists ctx, gen_ctx ctx.
Proof. exact C69_vectors_example_pf. Qed.

Example C69_candidates_example : mac32 (hmac sha256) /\ rfc_candidate (hmac sha256) 1 (sha256 satoshi) 0 0x8f8a276c19f4149656b280621e358cce24f5f52542772691ee69063b74f15d15.
Proof. exact C69_candidates_example_pf. Qed.

(** A key and a hash for which [sign] returns, in a debug build, with r different from 0. *)
Example C69_sign_rfc6979_example : exists ctx k m g id, gen_ctx ctx /\ mac32 (hmac sha256) /\ length (be_bytes 32 1) = 32%nat /\ bytes (be_bytes 32 1) /\ length (sha256 satoshi) = 32%nat /\ bytes (sha256 satoshi) /\
  sk_parse true (be_bytes 32 1) = Some (Ok k) /\ msg_parse true (sha256 satoshi) = Some m /\ sign true (sign_drbg (hmac sha256)) 1 ctx m k = Done (g, id) /\ s_is_zero (sig_r g) = false.
Proof. exact C69_sign_rfc6979_example_pf. Qed.

(** The RFC 6979 nonce of the first vector, its hypotheses met. *)
Example C69_rfc6979_signs_example : rfc_nonce (hmac sha256) 1 (sha256 satoshi) 0 va_k /\ forall j t, (j <= 0)%nat -> rfc_candidate (hmac sha256) 1 (sha256 satoshi) j t -> ~ wraps t.
Proof. exact C69_rfc6979_signs_example_pf. Qed.
