(** MMachine.v once more, with two flags instead of one: [fst bd] says whether debug assertions are executed
    ([debug-assertions]), [snd bd] whether an arithmetic overflow panics ([overflow-checks]). Written by tools/gen_builds.py. *)
From Verif Require Import Word MField MScalar MGroup MEcmult MEcdsa MDer MApi MEq MMachine XField XScalar XGroup XEcmult XEcdsa XDer XApi.

Section Build.
Variable bd : bool * bool.
Variable gctx : genctx.
Variable vctx : ecctx.
Variable D : list Z -> list Z.
Variable drbg : list Z -> list Z -> nat -> list Z.
Variable fuel : nat.

(** one call of the client; the functions called are those of the lines cited at [cmd] *)
Definition step_x (st : list cval) (c : cmd) : outcome (list cval) :=
  match c with
  | Input b => Done (st ++ [CBytes b])
  | PkParse i f => match nth_error st i with Some (CBytes b) => push st (of_res CPub (pk_parse_slice_x bd b f)) | _ => Done st end
  | PkFromSecret i => match nth_error st i with Some (CSec k) => push st (of_opt CPub (pk_from_secret_key_x bd gctx k)) | _ => Done st end
  | PkSerialize i => match nth_error st i with Some (CPub k) => push st (of_opt CBytes (pk_serialize_x bd k)) | _ => Done st end
  | PkSerializeCompressed i => match nth_error st i with Some (CPub k) => push st (of_opt CBytes (pk_serialize_compressed_x bd k)) | _ => Done st end
  | PkTweakAdd i j => match nth_error st i, nth_error st j with Some (CPub k), Some (CSec t) => assign CPub st i (pk_tweak_add_assign_x bd vctx k t) | _, _ => Done st end
  | PkTweakMul i j => match nth_error st i, nth_error st j with Some (CPub k), Some (CSec t) => assign CPub st i (pk_tweak_mul_assign_x bd vctx k t) | _, _ => Done st end
  | PkCombine l => match pubs st l with Some ks => push st (of_res CPub (pk_combine_x bd ks)) | None => Done st end
  | PkEqual i j => match nth_error st i, nth_error st j with Some (CPub k), Some (CPub k') => push st (of_opt CBool (pk_eq_x bd k k')) | _, _ => Done st end
  | SkParse i => match nth_error st i with Some (CBytes b) => push st (of_res CSec (sk_parse_slice_x bd b)) | _ => Done st end
  | SkRandom rng => match sk_random_x bd fuel rng 0 with Done k => Done (st ++ [CSec k]) | Panic => Panic | Running => Running end
  | SkDefault => push st (of_opt CSec (sk_default_x bd))
  | SkSerialize i => match nth_error st i with Some (CSec k) => Done (st ++ [CBytes (sk_serialize k)]) | _ => Done st end
  | SkTweakAdd i j => match nth_error st i, nth_error st j with Some (CSec k), Some (CSec t) => assign CSec st i (sk_tweak_add_assign_x bd k t) | _, _ => Done st end
  | SkTweakMul i j => match nth_error st i, nth_error st j with Some (CSec k), Some (CSec t) => assign CSec st i (sk_tweak_mul_assign_x bd k t) | _, _ => Done st end
  | SkInv i => match nth_error st i with Some (CSec k) => push st (of_opt CSec (sk_inv_x bd k)) | _ => Done st end
  | SkEqual i j => match nth_error st i, nth_error st j with Some (CSec k), Some (CSec k') => Done (st ++ [CBool (sk_eqb k k')]) | _, _ => Done st end
  | SigParseStandard i => match nth_error st i with Some (CBytes b) => push st (of_res CSig (sig_parse_standard_slice_x bd b)) | _ => Done st end
  | SigParseOverflowing i => match nth_error st i with Some (CBytes b) => push st (of_res CSig (sig_parse_overflowing_slice_x bd b)) | _ => Done st end
  | SigParseDer i => match nth_error st i with Some (CBytes b) => push st (of_res CSig (sig_parse_der_x bd b)) | _ => Done st end
  | SigParseDerLax i => match nth_error st i with Some (CBytes b) => push st (of_res CSig (sig_parse_der_lax_x bd b)) | _ => Done st end
  | SigNormalize i => match nth_error st i with
      | Some (CSig g) => match sig_normalize_s_x bd g with None => Panic | Some g' => Done (upd st i (CSig g')) end
      | _ => Done st end
  | SigSerialize i => match nth_error st i with Some (CSig g) => Done (st ++ [CBytes (sig_serialize g)]) | _ => Done st end
  | SigSerializeDer i => match nth_error st i with Some (CSig g) => Done (st ++ [CBytes (sig_serialize_der g)]) | _ => Done st end
  | SigEqual i j => match nth_error st i, nth_error st j with Some (CSig g), Some (CSig g') => Done (st ++ [CBool (sig_eqb g g')]) | _, _ => Done st end
  | MsgParse i => match nth_error st i with Some (CBytes b) => push st (of_res CMsg (msg_parse_slice_x bd b)) | _ => Done st end
  | MsgSerialize i => match nth_error st i with Some (CMsg m) => Done (st ++ [CBytes (msg_serialize m)]) | _ => Done st end
  | RidParse v => push st (of_res CRid (Some (rid_parse v)))
  | RidParseRpc v => push st (of_res CRid (Some (rid_parse_rpc v)))
  | RidSerialize i => match nth_error st i with Some (CRid r) => Done (st ++ [CByte (rid_serialize r)]) | _ => Done st end
  | Ecdh i j => match nth_error st i, nth_error st j with Some (CPub q), Some (CSec k) => push st (of_res CBytes (shared_secret_new_x bd D q k)) | _, _ => Done st end
  | Verify i j l => match nth_error st i, nth_error st j, nth_error st l with
      | Some (CMsg m), Some (CSig g), Some (CPub q) => push st (of_opt CBool (verify_x bd vctx m g q))
      | _, _, _ => Done st end
  | Recover i j l => match nth_error st i, nth_error st j, nth_error st l with
      | Some (CMsg m), Some (CSig g), Some (CRid r) => push st (of_res CPub (recover_x bd vctx m g r))
      | _, _, _ => Done st end
  | Sign i j => match nth_error st i, nth_error st j with
      | Some (CMsg m), Some (CSec k) =>
          match sign_x bd drbg fuel gctx m k with Done (g, r) => Done (st ++ [CSig g; CRid r]) | Panic => Panic | Running => Running end
      | _, _ => Done st end
  end.

(** a whole program, any number of calls (src/lib.rs is entered at the lines cited at [cmd]) *)
Fixpoint run_x (st : list cval) (p : list cmd) : outcome (list cval) :=
  match p with
  | [] => Done st
  | c :: t => match step_x st c with Done st' => run_x st' t | Panic => Panic | Running => Running end
  end.

End Build.
