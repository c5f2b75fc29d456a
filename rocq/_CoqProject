-Q theories Verif
theories/Bytes.v
theories/Base64.v
theories/Utf8.v
theories/Json.v
theories/Value.v
theories/Types.v
theories/Serde.v
theories/BytesFacts.v
theories/Base64Facts.v
theories/Utf8Facts.v
theories/JsonFacts.v
theories/ValueFacts.v
theories/SerdeFacts.v
theories/ChaCha.v
theories/Sha256.v
theories/Regex.v
theories/Message.v
theories/Attach.v
theories/Problem.v
theories/Envelope.v
theories/Log.v
theories/Float.v
theories/Spec.v
theories/SpecFacts.v
theories/DecodeFacts.v
theories/PlainFacts.v
theories/CryptoLaws.v
theories/Examples.v
theories/BodyFacts.v
theories/CodecFacts.v
theories/PlainFacts2.v
theories/SpecOps.v
theories/SetterFacts.v
theories/SpecText.v
theories/SpecJson.v
theories/RegexFacts.v
theories/GrammarFacts.v
theories/PropGrammar.v
theories/PropValue.v
theories/PropPlain.v
theories/PropSetters.v
theories/PropText.v
theories/SpecSign.v
theories/HeaderFacts.v
theories/SignFacts.v
theories/SignFacts2.v
theories/PropSign.v
theories/SpecSeal.v
theories/SealFacts.v
theories/SealFacts2.v
theories/SealFacts3.v
theories/PropSeal.v
theories/SpecKey.v
theories/KeyFacts.v
theories/PropKey.v
theories/SpecRoute.v
theories/RouteFacts.v
theories/PropRoute.v
theories/SpecFloat.v
theories/FloatFacts.v
theories/FloatFacts2.v
theories/FloatFacts3.v
theories/FloatFacts4.v
theories/PropFloat.v
theories/SpecDecode.v
theories/ReadFacts.v
theories/ReadFacts2.v
theories/ReadFacts3.v
theories/PropDecode.v
theories/OrderFacts.v
theories/OrderFacts2.v
theories/SpecEnv.v
theories/SameFacts.v
theories/SameFacts2.v
theories/SameFacts3.v
theories/PropSame.v
theories/PropOrder.v
theories/Build.v
theories/NoResolve.v
theories/PropFeature.v
theories/PropBuild.v
theories/PropRaw.v
theories/PropParts.v
theories/Aead.v
theories/AeadFacts.v
theories/AeadFacts2.v
theories/PropAead.v
theories/PrimeFacts.v
theories/PrimeCert.v
theories/Curve.v
theories/CurveField.v
theories/Edwards.v
theories/CurveFacts.v
theories/PropCurve.v
theories/Sha512.v
theories/Ed25519.v
theories/EdOrder.v
theories/EdPoint.v
theories/EdFacts.v
theories/SignSize.v
theories/PropEd.v
theories/SpecPrim.v
theories/PrimFacts.v
theories/PrimFacts2.v
theories/PrimFacts3.v
theories/PrimFacts4.v
theories/PrimUnique.v
theories/PropPrim.v
theories/Cbc.v
theories/SpecCbc.v
theories/CbcFacts.v
theories/PropCbc.v
theories/PropWhole.v
theories/PropSwap.v
theories/PropPass.v
theories/PropKid.v
theories/PropOnion.v
theories/PropPeel.v
theories/PropReply.v
theories/PropShort.v
theories/PropDeny.v
theories/PropLog.v
theories/DidUrl.v
theories/PropUrl.v
theories/Replay.v
