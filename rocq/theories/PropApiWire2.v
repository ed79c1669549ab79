(** Property theorems proved in ApiWire2.v (written by tools/gen_props.py). *)
From Verif Require Import Word MField MScalar MGroup MEcmult MEcdsa MDer MApi MWire WP FieldNorm Spec Fp Bits Denote Curve Group Order Key Ctx ApiScalar ApiDer ApiGrammar ApiPub ApiGroup ApiEcdsa ApiKeys ApiMore ApiBase64 ApiEq ApiWire ApiWire2.

(** Deriving the public key of a tweaked secret key, and tweaking the public key: the same bytes, or the same error, for all byte strings. *)
Theorem C77_derive : forall dbg dbg' gctx gctx' vctx bk bt, gen_ctx gctx -> gen_ctx gctx' -> verify_ctx vctx -> bytes bk -> bytes bt ->
  (let? k := w_sec_add dbg bk bt in w_public dbg gctx k) = (let? q := w_public dbg' gctx' bk in w_pub_add dbg' vctx q bt) /\
  (let? k := w_sec_mul dbg bk bt in w_public dbg gctx k) = (let? q := w_public dbg' gctx' bk in w_pub_mul dbg' vctx q bt).
Proof. exact C77_derive_pf. Qed.
Print Assumptions C77_derive.

(** The error for a tweak to zero is met, too. *)
Example C77_derive_example : (exists ctx, gen_ctx ctx) /\ (exists ctx, verify_ctx ctx) /\ w_sec_add true (be_bytes 32 1) (be_bytes 32 (n - 1)) = Some (Err TweakOutOfRange) /\ w_sec_add true (be_bytes 32 1) (be_bytes 32 1) = Some (Ok (be_bytes 32 2)).
Proof. exact C77_derive_example_pf. Qed.

(** The result depends on the point a key names, not on the format it is written in: verification, ECDH, tweaks. *)
Theorem C77_formats : forall dbg bp bp' x y, names bp x y -> names bp' x y ->
  (forall ctx bm bs, verify_ctx ctx -> bytes bm -> bytes bs -> w_verify dbg ctx bm bs bp = w_verify dbg ctx bm bs bp') /\
  (forall D bk, bytes bk -> w_ecdh dbg D bp bk = w_ecdh dbg D bp' bk) /\
  (forall ctx bt, verify_ctx ctx -> bytes bt -> w_pub_add dbg ctx bp bt = w_pub_add dbg ctx bp' bt /\ w_pub_mul dbg ctx bp bt = w_pub_mul dbg ctx bp' bt) /\
  (forall l l', Forall bytes l -> Forall bytes l' -> w_combine dbg (l ++ bp :: l') = w_combine dbg (l ++ bp' :: l')).
Proof. exact C77_formats_pf. Qed.
Print Assumptions C77_formats.

Example C77_formats_example : names (sec1_full gx gy) gx gy /\ names (sec1_compressed gx gy) gx gy /\ sec1_full gx gy <> sec1_compressed gx gy.
Proof. exact C77_formats_example_pf. Qed.

(** Key agreement: each party parses its own secret and the key the other sent, in any format, and both get the same digest. *)
Theorem C77_agreement : forall dbg dbg' ctx ctx' D ba bb pa pb qa qb xa ya xb yb, gen_ctx ctx -> gen_ctx ctx' -> bytes ba -> bytes bb ->
  w_public dbg ctx ba = Some (Ok pa) -> w_public dbg' ctx' bb = Some (Ok pb) -> names pa xa ya -> names qa xa ya -> names pb xb yb -> names qb xb yb ->
  exists k, w_ecdh dbg D qb ba = Some (Ok k) /\ w_ecdh dbg' D qa bb = Some (Ok k).
Proof. exact C77_agreement_pf. Qed.
Print Assumptions C77_agreement.

Example C77_agreement_example : exists ctx x y, gen_ctx ctx /\ bytes (be_bytes 32 1) /\ w_public true ctx (be_bytes 32 1) = Some (Ok (sec1_full x y)) /\ names (sec1_full x y) x y.
Proof. exact C77_agreement_example_pf. Qed.

(** Signing, verification and recovery over the wire: the signature is accepted under the signer's key in any format, and the id gives the signer's 65 bytes back. *)
Theorem C77_sign_verify : forall dbg dbg' drbg fuel gctx gctx' vctx bm bk bs id bp bq x y, gen_ctx gctx -> gen_ctx gctx' -> verify_ctx vctx -> bytes bm -> bytes bk -> (forall s m, stream (drbg s m)) ->
  w_sign dbg drbg fuel gctx bm bk = Done (Ok (bs, id)) -> w_public dbg' gctx' bk = Some (Ok bp) -> dbg = true \/ firstn 32 bs <> repeat 0 32 -> names bp x y -> names bq x y ->
  w_verify dbg' vctx bm bs bq = Some (Ok true) /\ w_recover dbg' vctx bm bs id = Some (Ok bp).
Proof. exact C77_sign_verify_pf. Qed.
Print Assumptions C77_sign_verify.

Example C77_sign_verify_example : exists drbg gctx bs id, gen_ctx gctx /\ (forall s m, stream (drbg s m)) /\ w_sign true drbg 2 gctx (be_bytes 32 1) (be_bytes 32 1) = Done (Ok (bs, id)).
Proof. exact C77_sign_verify_example_pf. Qed.
