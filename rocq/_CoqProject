-Q theories Verif
theories/Base.v
theories/BaseProofs.v
theories/Epb.v
theories/EpbProofs.v
theories/Nalu.v
theories/Crypto.v
theories/Types.v
theories/Hash.v
theories/Tlv.v
theories/TlvProofs.v
theories/EncProofs.v
theories/CodecSpec.v
theories/CodecProofs.v
theories/Signer.v
theories/PropsCodec.v
theories/NaluSpec.v
theories/NaluProofs.v
theories/PropsNalu.v
theories/SeiSpec.v
theories/SeiProofs.v
theories/GenProofs.v
theories/SignerProofs.v
theories/SessProofs.v
theories/Toy.v
theories/SignSpec.v
theories/StepProofs.v
theories/RunProofs.v
theories/DrainProofs.v
theories/PartsSpec.v
theories/PartsProofs.v
theories/RetryProofs.v
theories/PropsSigner.v
theories/PropsParts.v
theories/GopSpec.v
theories/EosSpec.v
theories/GoldSpec.v
theories/GopProofs.v
theories/GoldProofs.v
theories/RestartSpec.v
theories/RestartProofs.v
theories/PropsGop.v
theories/VTypes.v
theories/NaluList.v
theories/Validator.v
theories/SeiHashProofs.v
theories/PropsSei.v
theories/VListProofs.v
theories/VFrameProofs.v
theories/ValidSpec.v
theories/BookProofs.v
theories/VToy.v
theories/PropsBooks.v
theories/VAuthProofs.v
theories/Version.v
theories/VersionProofs.v
theories/PropsVerdict.v
theories/VUnsigned.v
theories/VKeyProofs.v
theories/PropsUnsigned.v
theories/PropsKey.v
theories/VLost.v
theories/PropsLost.v
theories/VTerm.v
theories/PropsTerm.v
theories/MatchSpec.v
theories/MatchProofs.v
theories/PropsMatch.v
theories/VReset.v
theories/PropsSafe.v
theories/AuthSpec.v
theories/AuthDec.v
theories/AuthProofs.v
theories/AuthBytes.v
theories/PropsAuth.v
theories/LinkSpec.v
theories/LinkList.v
theories/LinkProofs.v
theories/PropsLink.v
theories/ShownSpec.v
theories/ShownList.v
theories/ShownProofs.v
theories/PropsShown.v
theories/E2eSpec.v
theories/E2eDec.v
theories/E2eList.v
theories/E2eVal.v
theories/DamageSpec.v
theories/E2eAny.v
theories/LossSpec.v
theories/EndSpec.v
theories/E2eLoss.v
theories/E2eStep.v
theories/E2eSei.v
theories/E2eRaw.v
theories/E2eMain.v
theories/E2eEnd.v
theories/E2eSeg.v
theories/RestartMain.v
theories/StartSpec.v
theories/E2eGold.v
theories/E2eGoldMain.v
theories/PropsGold.v
theories/SafeSpec.v
theories/SafeDec.v
theories/SafeList.v
theories/SafeRound.v
theories/SafeCheck.v
theories/SafeParse.v
theories/SafeProofs.v
theories/SafeMain.v
theories/PropsDefined.v
theories/PropsE2e.v
theories/PropsDamage.v
theories/PropsLoss.v
theories/PropsEos.v
theories/PropsSegment.v
theories/PlugTypes.v
theories/Plugin.v
theories/Threaded.v
theories/PlugSpec.v
theories/PlugProofs.v
theories/PropsPlugin.v
theories/ThreadSpec.v
theories/ThreadMem.v
theories/ThreadSim.v
theories/ThreadIds.v
theories/ThreadProofs.v
theories/ThreadHist.v
theories/ThreadMain.v
theories/PropsThread.v
theories/Vendor.v
theories/VendorSpec.v
theories/VendorProofs.v
theories/VendorKey.v
theories/PropsVendor.v
theories/PropsRestart.v
theories/ScrubMain.v
theories/PropsScrub.v
theories/NaluHeap.v
theories/HeapSpec.v
theories/HeapProofs.v
theories/HeapLink.v
theories/PropsHeap.v
theories/Late.v
theories/LateSpec.v
theories/LateProofs.v
theories/PropsLate.v
theories/TimingSpec.v
theories/TimingProofs.v
theories/PropsTiming.v
theories/LegacyTypes.v
theories/Legacy.v
theories/LegacySpec.v
theories/LegacyToy.v
theories/LegacyDec.v
theories/LegacyList.v
theories/LegacyVal.v
theories/LegacyStep.v
theories/LegacyGop.v
theories/LegacyRun.v
theories/LegacySame.v
theories/PropsLegacy.v
theories/LegacyAuthSpec.v
theories/LegacyAuth.v
theories/LegacyBytes.v
theories/LegacyVerdict.v
theories/PropsLegacyAuth.v
theories/LegacyAcc.v
theories/PropsLegacyVerdict.v
