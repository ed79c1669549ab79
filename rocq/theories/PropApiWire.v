(** Property theorems proved in ApiWire.v (written by tools/gen_props.py). *)
From Verif Require Import Word MField MScalar MGroup MEcmult MEcdsa MDer MApi MWire WP FieldNorm Spec Fp Bits Denote Curve Group Order Key Ctx ApiScalar ApiDer ApiGrammar ApiPub ApiGroup ApiEcdsa ApiKeys ApiMore ApiBase64 ApiEq ApiWire.

(** Verification of byte strings. [Ok true] for exactly the triples ECDSA accepts: a 32-byte hash, two 32-byte integers below n, and one of the byte strings naming a point; [Ok false] for the well-formed rest; an error otherwise, never a panic. *)
Theorem C76_verify : forall dbg ctx bm bs bp, verify_ctx ctx -> bytes bm -> bytes bs -> bytes bp ->
  exists a, w_verify dbg ctx bm bs bp = Some a /\
    (a = Ok true <-> exists z r s x y, hash_bytes bm z /\ sig_bytes bs r s /\ names bp x y /\ ecdsa_valid (Aff x y) z r s) /\
    (a = Ok false <-> exists z r s x y, hash_bytes bm z /\ sig_bytes bs r s /\ names bp x y /\ ~ ecdsa_valid (Aff x y) z r s) /\
    ((exists e, a = Err e) <-> ~ ((exists z, hash_bytes bm z) /\ (exists r s, sig_bytes bs r s) /\ exists x y, names bp x y)).
Proof. exact C76_verify_pf. Qed.
Print Assumptions C76_verify.

Example C76_verify_example : (exists ctx, verify_ctx ctx) /\ hash_bytes (be_bytes 32 n) 0 /\ sig_bytes (be_bytes 32 gx ++ be_bytes 32 gx) gx gx /\ names (sec1_compressed gx gy) gx gy /\ ecdsa_valid (Aff gx gy) 0 gx gx.
Proof. exact C76_verify_example_pf. Qed.

(** The same with the signature in DER, strict (the grammar of C70) or lax. *)
Theorem C76_verify_der : forall dbg ctx bm bs bp, verify_ctx ctx -> bytes bm -> bytes bs -> bytes bp ->
  (len bs < 2 ^ 55 -> exists a, w_verify_der dbg ctx bm bs bp = Some a /\
    (a = Ok true <-> exists z r s x y, hash_bytes bm z /\ strict_accepts bs r s /\ names bp x y /\ ecdsa_valid (Aff x y) z r s)) /\
  (exists a, w_verify_der_lax dbg ctx bm bs bp = Some a /\
    (a = Ok true <-> exists z r s x y, hash_bytes bm z /\ lax_sig bs r s /\ names bp x y /\ ecdsa_valid (Aff x y) z r s)).
Proof. exact C76_verify_der_pf. Qed.
Print Assumptions C76_verify_der.

Example C76_verify_der_example : bytes [48; 7; 2; 2; 0; 128; 2; 1; 1] /\ strict_accepts [48; 7; 2; 2; 0; 128; 2; 1; 1] 128 1.
Proof. exact C76_verify_der_example_pf. Qed.

(** Recovery from byte strings gives the 65 bytes of exactly the points the standard's recovery gives. *)
Theorem C76_recover : forall dbg ctx bm bs v, verify_ctx ctx -> bytes bm -> bytes bs -> 0 <= v < 256 ->
  exists a, w_recover dbg ctx bm bs v = Some a /\
    forall out, a = Ok out <-> exists z r s x y, hash_bytes bm z /\ sig_bytes bs r s /\ v < 4 /\ recovers z r s v (Aff x y) /\ out = sec1_full x y.
Proof. exact C76_recover_pf. Qed.
Print Assumptions C76_recover.

Example C76_recover_example : exists id x y, 0 <= id < 4 /\ hash_bytes (be_bytes 32 n) 0 /\ sig_bytes (be_bytes 32 gx ++ be_bytes 32 gx) gx gx /\ recovers 0 gx gx id (Aff x y).
Proof. exact C76_recover_example_pf. Qed.

(** The 65 bytes of d*G from the 32 bytes of d, and nothing from any other bytes. *)
Theorem C76_public : forall dbg ctx bk, gen_ctx ctx -> bytes bk ->
  exists a, w_public dbg ctx bk = Some a /\ forall out, a = Ok out <-> exists d x y, secret_bytes bk d /\ smul d G = Aff x y /\ out = sec1_full x y.
Proof. exact C76_public_pf. Qed.
Print Assumptions C76_public.

Example C76_public_example : (exists ctx, gen_ctx ctx) /\ secret_bytes (be_bytes 32 1) 1 /\ smul 1 G = Aff gx gy.
Proof. exact C76_public_example_pf. Qed.

(** ECDH of byte strings: the digest of the 33 bytes of d*P. *)
Theorem C76_ecdh : forall dbg D bp bk, bytes bp -> bytes bk ->
  exists a, w_ecdh dbg D bp bk = Some a /\ forall out, a = Ok out <-> exists d x y u v, names bp x y /\ secret_bytes bk d /\ smul d (Aff x y) = Aff u v /\ out = D (sec1_compressed u v).
Proof. exact C76_ecdh_pf. Qed.
Print Assumptions C76_ecdh.

Example C76_ecdh_example : names (be_bytes 32 gx ++ be_bytes 32 gy) gx gy /\ secret_bytes (be_bytes 32 1) 1 /\ smul 1 (Aff gx gy) = Aff gx gy.
Proof. exact C76_ecdh_example_pf. Qed.

(** Tweaking public keys as byte strings. *)
Theorem C76_public_tweaks : forall dbg ctx bp bt, verify_ctx ctx -> bytes bp -> bytes bt ->
  (exists a, w_pub_add dbg ctx bp bt = Some a /\ forall out, a = Ok out <-> exists t x y u v, names bp x y /\ secret_bytes bt t /\ padd (Aff x y) (smul t G) = Aff u v /\ out = sec1_full u v) /\
  (exists a, w_pub_mul dbg ctx bp bt = Some a /\ forall out, a = Ok out <-> exists t x y u v, names bp x y /\ secret_bytes bt t /\ smul t (Aff x y) = Aff u v /\ out = sec1_full u v).
Proof. exact C76_public_tweaks_pf. Qed.
Print Assumptions C76_public_tweaks.

Example C76_public_tweaks_example : (exists ctx, verify_ctx ctx) /\ names (sec1_full gx gy) gx gy /\ secret_bytes (be_bytes 32 1) 1.
Proof. exact C76_public_tweaks_example_pf. Qed.

(** Tweaking secret keys as byte strings. *)
Theorem C76_secret_tweaks : forall dbg bk bt, bytes bk -> bytes bt ->
  (exists a, w_sec_add dbg bk bt = Some a /\ forall out, a = Ok out <-> exists d t, secret_bytes bk d /\ secret_bytes bt t /\ secret_bytes out ((d + t) mod n)) /\
  (exists a, w_sec_mul dbg bk bt = Some a /\ forall out, a = Ok out <-> exists d t, secret_bytes bk d /\ secret_bytes bt t /\ secret_bytes out ((d * t) mod n)).
Proof. exact C76_secret_tweaks_pf. Qed.
Print Assumptions C76_secret_tweaks.

Example C76_secret_tweaks_example : secret_bytes (be_bytes 32 (n - 1)) (n - 1) /\ secret_bytes (be_bytes 32 2) 2 /\ secret_bytes (be_bytes 32 1) ((n - 1 + 2) mod n).
Proof. exact C76_secret_tweaks_example_pf. Qed.

Theorem C76_combine : forall dbg l, Forall bytes l ->
  exists a, w_combine dbg l = Some a /\ forall out, a = Ok out <-> exists Ps u v, Forall2 (fun b P => exists x y, P = Aff x y /\ names b x y) l Ps /\ psum Ps = Aff u v /\ out = sec1_full u v.
Proof. exact C76_combine_pf. Qed.
Print Assumptions C76_combine.

Example C76_combine_example : Forall2 (fun b P => exists x y, P = Aff x y /\ names b x y) [sec1_full gx gy] [G] /\ psum [G] = Aff gx gy.
Proof. exact C76_combine_example_pf. Qed.
