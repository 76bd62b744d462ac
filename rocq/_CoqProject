-Q theories Verif
theories/Res.v
theories/Zp.v
theories/FieldTheory.v
theories/Primality.v
theories/Certs.v
theories/Generator.v
theories/Circuit.v
theories/LCTheory.v
theories/Sem.v
theories/NumSpec.v
theories/NumBits.v
theories/Bitify.v
theories/Bytes.v
theories/Blake2s.v
theories/NumCodec.v
theories/Poseidon.v
theories/Seedbox.v
theories/PointData.v
theories/Verifier.v
theories/SizedVec.v
theories/Solidity.v
theories/Ecc.v
theories/Group.v
theories/Edwards.v
theories/BitsTheory.v
theories/CodecSpec.v
theories/EccSpec.v
theories/MontSpec.v
theories/CurveOrder.v
theories/CurveCard.v
theories/CurveCert.v
theories/Curves.v
theories/CurveBN.v
theories/CurveBLS.v
theories/JubJub.v
theories/Toy.v
theories/Eddsa.v
theories/CEcc.v
theories/BitifySpec.v
theories/CEccSpec.v
theories/CEccMul.v
theories/CEccVar.v
theories/CEccConst.v
theories/CEccFrom.v
theories/Always.v
theories/Shape.v
theories/PoseidonSpec.v
theories/SeedSpec.v
theories/PoseidonCount.v
theories/CEddsaSpec.v
theories/PoseidonMeta.v
theories/CEccMeta.v
theories/Ops.v
theories/OpsSpec.v
theories/Claims.v
theories/Run.v
theories/NumClaims.v
theories/BitClaims.v
theories/PoseidonClaims.v
theories/CodecClaims.v
theories/EccClaims.v
theories/EddsaClaims.v
theories/CEccClaims.v
theories/MontClaims.v
theories/ConstClaims.v
theories/CircuitClaims.v
theories/PointClaims.v
theories/G2Cert.v
theories/BnG2.v
theories/CertBnq.v
theories/CertBls.v
theories/G2Claims.v
theories/PropsG2.v
theories/VerifierClaims.v
theories/SolidityClaims.v
theories/OsRng.v
theories/SeedClaims.v
theories/RandClaims.v
theories/NoInput.v
theories/Signal.v
theories/SignalSpec.v
theories/MetaClaims.v
theories/SignalClaims.v
theories/PropsSignal.v
theories/Backends.v
theories/Groth16.v
theories/Bindings.v
theories/CmdLine.v
theories/BackendClaims.v
theories/PermClaims.v
theories/PoseidonInv.v
theories/LibClaims.v
theories/WideClaims.v
theories/MoreClaims.v
theories/MiscClaims.v
theories/Window.v
theories/WindowBN.v
theories/WindowBLS.v
theories/ParamClaims.v
theories/BindClaims.v
theories/PropsBackend.v
theories/PropsMeta.v
theories/PropsNum.v
theories/PropsBit.v
theories/PropsPoseidon.v
theories/PropsCodec.v
theories/PropsEcc.v
theories/PropsEddsa.v
theories/PropsCEcc.v
theories/PropsMont.v
theories/PropsCircuit.v
theories/PropsSeed.v
theories/PropsPoint.v
theories/PropsVerifier.v
theories/PropsSolidity.v
theories/PropsPerm.v
theories/PropsBind.v
theories/PropsLib.v
theories/PropsWide.v
theories/PropsMore.v
theories/FreeClaims.v
theories/PropsFree.v
theories/PropsRand.v
theories/PropsConst.v
theories/FormatClaims.v
theories/CliClaims.v
theories/CmdClaims.v
theories/PropsFormat.v
theories/PropsCli.v
theories/PropsCmd.v
theories/LineClaims.v
theories/PropsLine.v
theories/EndClaims.v
theories/PropsEnd.v
theories/PropsMisc.v
theories/PropsParam.v
theories/WeierLaw.v
theories/WeierAssoc.v
theories/WeierClaims.v
theories/BlsGen.v
theories/BlsClaims.v
theories/TextClaims.v
theories/HashClaims.v
theories/PropsWeier.v
theories/Contract.v
theories/ContractClaims.v
theories/PropsBls.v
theories/PropsContract.v
theories/PropsText.v
theories/PropsHash.v
theories/Groth16Claims.v
theories/PropsGroth16.v
theories/SystemClaims.v
theories/PropsSystem.v
theories/CaseClaims.v
theories/PropsCase.v
theories/LooseClaims.v
theories/PropsLoose.v
