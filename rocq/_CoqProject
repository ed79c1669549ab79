-Q theories Verif
theories/Word.v
theories/MField.v
theories/MScalar.v
theories/MGroup.v
theories/MEcmult.v
theories/MEcdsa.v
theories/MDer.v
theories/MApi.v
theories/MDrbg.v
theories/MDecoder.v
theories/MCore.v
theories/MGenSrc.v
theories/MTrace.v
theories/MConc.v
theories/WP.v
theories/FieldMul.v
theories/FieldNorm.v
theories/FieldZero.v
theories/Fermat.v
theories/Primes.v
theories/Spec.v
theories/Fp.v
theories/Bits.v
theories/FieldOps.v
theories/FieldCodec.v
theories/FieldStore.v
theories/ScalarAcc.v
theories/ScalarMul.v
theories/ScalarOps.v
theories/ScalarRed.v
theories/ScalarMore.v
theories/ScalarBits.v
theories/Denote.v
theories/Curve.v
theories/GroupLaw.v
theories/Group.v
theories/CubeCert.v
theories/Chain.v
theories/OrderCert.v
theories/Order.v
theories/VectorCert.v
theories/ApiScalar.v
theories/PropApiScalar.v
theories/Unred.v
theories/ApiDer.v
theories/PropApiDer.v
theories/ApiGrammar.v
theories/PropApiGrammar.v
theories/ApiDecoder.v
theories/PropApiDecoder.v
theories/ApiCore.v
theories/PropApiCore.v
theories/Jac.v
theories/JacOps.v
theories/Table.v
theories/Wnaf.v
theories/WnafC.v
theories/Ecmult.v
theories/GenChain.v
theories/GenCert.v
theories/Lift.v
theories/Gen.v
theories/Key.v
theories/ApiPub.v
theories/PropApiPub.v
theories/Ctx.v
theories/ApiGroup.v
theories/PropApiGroup.v
theories/Ecdsa.v
theories/ApiEcdsa.v
theories/PropApiEcdsa.v
theories/ApiDrbg.v
theories/PropApiDrbg.v
theories/ApiSha.v
theories/PropApiSha.v
theories/ApiKeys.v
theories/PropApiKeys.v
theories/ApiUnred.v
theories/PropApiUnred.v
theories/ApiEdge.v
theories/PropApiEdge.v
theories/ApiArith.v
theories/PropApiArith.v
theories/ApiMore.v
theories/PropApiMore.v
theories/Mono.v
theories/ApiMono.v
theories/PropApiMono.v
theories/ApiGen.v
theories/PropApiGen.v
theories/Endo.v
theories/Trace.v
theories/TraceEc.v
theories/TraceGen.v
theories/ApiTrace.v
theories/PropApiTrace.v
theories/MBase64.v
theories/Base64.v
theories/ApiBase64.v
theories/PropApiBase64.v
theories/MHeap.v
theories/Heap.v
theories/ApiHeap.v
theories/PropApiHeap.v
theories/ApiConc.v
theories/PropApiConc.v
theories/MEq.v
theories/ApiEq.v
theories/PropApiEq.v
theories/MWire.v
theories/ApiWire.v
theories/PropApiWire.v
theories/ApiWire2.v
theories/PropApiWire2.v
theories/MMachine.v
theories/ApiMachine.v
theories/PropApiMachine.v
theories/ApiMall.v
theories/PropApiMall.v
theories/ApiLaws.v
theories/PropApiLaws.v
theories/MDebug.v
theories/ApiDebug.v
theories/PropApiDebug.v
theories/ApiNonce.v
theories/PropApiNonce.v
theories/MInPlace.v
theories/ApiInPlace.v
theories/PropApiInPlace.v
theories/Zero.v
theories/ApiClear.v
theories/PropApiClear.v
theories/MClient.v
theories/ApiClient.v
theories/PropApiClient.v
theories/Total.v
theories/ApiTotal.v
theories/PropApiTotal.v
theories/ApiBij.v
theories/PropApiBij.v
theories/MRaw.v
theories/Raw.v
theories/ApiRaw.v
theories/PropApiRaw.v
theories/MResidue.v
theories/Residue.v
theories/ApiResidue.v
theories/PropApiResidue.v
theories/MCost.v
theories/CostLib.v
theories/ApiCost.v
theories/PropApiCost.v
theories/ApiLimits.v
theories/PropApiLimits.v
theories/ApiUniform.v
theories/PropApiUniform.v
theories/ApiForge.v
theories/PropApiForge.v
theories/MWidth.v
theories/ApiWidth.v
theories/PropApiWidth.v
theories/MPretty.v
theories/ApiPretty.v
theories/PropApiPretty.v
theories/XField.v
theories/XScalar.v
theories/XGroup.v
theories/XEcmult.v
theories/XEcdsa.v
theories/XDer.v
theories/XApi.v
theories/Builds.v
theories/BuildsQ.v
theories/ApiBuilds.v
theories/PropApiBuilds.v
theories/XMachine.v
theories/XClient.v
theories/NoOvf.v
theories/ApiOvf.v
theories/PropApiOvf.v
theories/FieldMag32.v
theories/MOps.v
theories/ApiOps.v
theories/PropApiOps.v
theories/MPointOps.v
theories/ApiPointOps.v
theories/PropApiPointOps.v
