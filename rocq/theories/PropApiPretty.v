(** Property theorems proved in ApiPretty.v (written by tools/gen_props.py). *)
From Coq Require Import String Ascii.
From Verif Require Import Word MField MScalar MGroup MGenSrc MApi MDebug MPretty WP FieldMul FieldNorm FieldZero Spec Fp Bits FieldOps FieldCodec FieldStore ScalarAcc ScalarMul ScalarOps Denote Curve Group Chain Order Jac JacOps Lift Key Ctx ApiScalar ApiPub ApiGroup ApiArith ApiMore ApiGen ApiDebug ApiPretty.

(** The trees of builder calls written in the plain form give the plain texts. *)
Theorem C81_alternate_trees :
  (forall s, plain (s_tree s) = s_debug s) /\ (forall f, plain (f_tree f) = f_debug f) /\ (forall f, plain (fs_tree f) = fs_debug f) /\
  (forall a, plain (af_tree a) = af_debug a) /\ (forall a, plain (j_tree a) = j_debug a) /\ (forall a, plain (as_tree a) = as_debug a) /\
  (forall k, plain (pk_tree k) = pk_debug k) /\ (forall k, plain (sk_tree k) = sk_debug k) /\ (forall g, plain (sig_tree g) = sig_debug g) /\
  (forall r, plain (rid_tree r) = rid_debug r) /\ (forall m, plain (msg_tree m) = msg_debug m) /\ (forall l, plain (ss_tree l) = ss_debug l) /\
  (forall e, plain (error_tree e) = error_debug e).
Proof. exact C81_alternate_trees_pf. Qed.
Print Assumptions C81_alternate_trees.

(** The alternate text of any value differs from the plain one only in blanks, newlines and commas in front of closing brackets. *)
Theorem C81_alternate :
  (forall k, essence (pretty (sk_tree k)) "" = essence (sk_debug k) "") /\ (forall m, essence (pretty (msg_tree m)) "" = essence (msg_debug m) "") /\
  (forall g, essence (pretty (sig_tree g)) "" = essence (sig_debug g) "") /\ (forall r, essence (pretty (rid_tree r)) "" = essence (rid_debug r) "") /\
  (forall l, essence (pretty (ss_tree l)) "" = essence (ss_debug l) "") /\ (forall k, essence (pretty (pk_tree k)) "" = essence (pk_debug k) "") /\
  (forall a, essence (pretty (j_tree a)) "" = essence (j_debug a) "") /\ (forall a, essence (pretty (as_tree a)) "" = essence (as_debug a) "") /\
  (forall e, pretty (error_tree e) = error_debug e).
Proof. exact C81_alternate_pf. Qed.
Print Assumptions C81_alternate.

Example C81_alternate_example : essence (pretty (rid_tree 3)) "" = "RecoveryId(3)" /\ essence "RecoveryId( 3 , )" "" = "RecoveryId(3)" /\ pretty (rid_tree 3) <> rid_debug 3.
Proof. exact C81_alternate_example_pf. Qed.

(** Both forms contain the same numbers in the same order. *)
Theorem C81_alternate_numbers :
  (forall k, Forall u32b (s_limbs k) -> numbers (pretty (sk_tree k)) = numbers (sk_debug k) /\ numbers (pretty (msg_tree k)) = numbers (msg_debug k)) /\
  (forall g, Forall u32b (s_limbs (sig_r g)) -> Forall u32b (s_limbs (sig_s g)) -> numbers (pretty (sig_tree g)) = numbers (sig_debug g)) /\
  (forall r, u32b r -> numbers (pretty (rid_tree r)) = numbers (rid_debug r)) /\
  (forall l, Forall u32b l -> numbers (pretty (ss_tree l)) = numbers (ss_debug l)) /\
  (forall k, Forall u32b (field_numbers (af_x k)) -> Forall u32b (field_numbers (af_y k)) -> numbers (pretty (pk_tree k)) = numbers (pk_debug k)).
Proof. exact C81_alternate_numbers_pf. Qed.
Print Assumptions C81_alternate_numbers.

Example C81_alternate_numbers_example : Forall u32b (s_limbs (scalar_of 77)) /\ numbers (pretty (sk_tree (scalar_of 77))) = [77; 0; 0; 0; 0; 0; 0; 0].
Proof. exact C81_alternate_numbers_example_pf. Qed.

(** So the alternate text of a secret key discloses the key as the plain one does. *)
Theorem C81_alternate_secret : forall dbg b sk, length b = 32%nat -> bytes b -> sk_parse dbg b = Some (Ok sk) ->
  be_bytes 32 (digits_val (2 ^ 32) (numbers (pretty (sk_tree sk)))) = b.
Proof. exact C81_alternate_secret_pf. Qed.
Print Assumptions C81_alternate_secret.

Example C81_alternate_secret_example : length (be_bytes 32 77) = 32%nat /\ bytes (be_bytes 32 77) /\ sk_parse true (be_bytes 32 77) = Some (Ok (scalar_of 77)).
Proof. exact C81_alternate_secret_example_pf. Qed.

(** Layout of the alternate texts, with # for each number. *)
Theorem C81_alternate_layout :
  (forall v, shape (pretty (rid_tree v)) = "RecoveryId(
    #,
)") /\
  (forall k, shape (pretty (sk_tree k)) = "SecretKey(
    Scalar(
        [
            #,
            #,
            #,
            #,
            #,
            #,
            #,
            #,
        ],
    ),
)") /\
  (forall f, shape (pretty (f_tree f)) = ("Field {
    n: [
        #,
        #,
        #,
        #,
        #,
        #,
        #,
        #,
        #,
        #,
    ],
    magnitude: #,
    normalized: " ++ (if f_norm f then "true" else "false") ++ ",
}")%string) /\
  shape (pretty (ss_tree [])) = "SharedSecret(
    [],
)".
Proof. exact C81_alternate_layout_pf. Qed.
Print Assumptions C81_alternate_layout.
