-Q theories Verif
theories/AesModel.v
theories/AesModes.v
theories/AesProofs.v
theories/AesSpec.v
theories/AesTables.v
theories/AlertModel.v
theories/AlertProofs.v
theories/Base58Model.v
theories/Base58Proofs.v
theories/BlockModel.v
theories/CarmichaelProofs.v
theories/ComplaintModel.v
theories/DerAccept.v
theories/DerModel.v
theories/DerProofs.v
theories/DerSpec.v
theories/DiffModel.v
theories/DigArith.v
theories/EcCheck.v
theories/EcGroup.v
theories/EcLib.v
theories/EcModel.v
theories/EcOrder.v
theories/EcParams192.v
theories/EcParams224.v
theories/EcParams256.v
theories/EcParams256k1.v
theories/EcParams384.v
theories/EcParams521.v
theories/EcProofs.v
theories/EcSpec.v
theories/EcdsaProofs.v
theories/EcdsaSpec.v
theories/FactorProofs.v
theories/FormatModel.v
theories/FormatProofs.v
theories/FormatProofs2.v
theories/FormatSpec.v
theories/GrpMul.v
theories/HdProofs.v
theories/JsonModel.v
theories/JsonProofs.v
theories/KeyCases.v
theories/KeyDer.v
theories/KeyModel.v
theories/KeyProofs.v
theories/KeySpec.v
theories/LineModel.v
theories/LogModel.v
theories/LogProofs.v
theories/LoopModel.v
theories/LucasLehmer.v
theories/MessagesModel.v
theories/MessagesProofs.v
theories/ModesProofs.v
theories/ModesProofs2.v
theories/ModesProofs3.v
theories/ModesSpec.v
theories/ModesUse.v
theories/NodeModel.v
theories/NodeProofs.v
theories/NodeProofs10.v
theories/NodeProofs11.v
theories/NodeProofs12.v
theories/NodeProofs2.v
theories/NodeProofs3.v
theories/NodeProofs4.v
theories/NodeProofs5.v
theories/NodeProofs6.v
theories/NodeProofs7.v
theories/NodeProofs8.v
theories/NodeProofs9.v
theories/NtJacobi.v
theories/NtModel.v
theories/NtProofs.v
theories/NtSqrt.v
theories/OnlineModel.v
theories/OrderProofs.v
theories/PemModel.v
theories/PemProofs.v
theories/PieceB32.v
theories/PieceModel.v
theories/PieceProofs.v
theories/PieceQr.v
theories/PollModel.v
theories/PrimeModel.v
theories/PrimeProofs.v
theories/PrintModel.v
theories/PropsAccord.v
theories/PropsAes.v
theories/PropsAlert.v
theories/PropsAlive.v
theories/PropsApart.v
theories/PropsBase58.v
theories/PropsBeat.v
theories/PropsComplaint.v
theories/PropsCurves.v
theories/PropsDead.v
theories/PropsDeliver.v
theories/PropsDer.v
theories/PropsDiff.v
theories/PropsEc.v
theories/PropsFair.v
theories/PropsFaithful.v
theories/PropsFamily.v
theories/PropsFile.v
theories/PropsForeign.v
theories/PropsHash.v
theories/PropsHello.v
theories/PropsHold.v
theories/PropsIdent.v
theories/PropsKey.v
theories/PropsLife.v
theories/PropsLines.v
theories/PropsLoad.v
theories/PropsLog.v
theories/PropsLoop.v
theories/PropsMalformed.v
theories/PropsMaster.v
theories/PropsMeet.v
theories/PropsNames.v
theories/PropsNoKey.v
theories/PropsNode.v
theories/PropsNonce.v
theories/PropsNt.v
theories/PropsOnline.v
theories/PropsPiece.v
theories/PropsPrime.v
theories/PropsPrint.v
theories/PropsProtocol.v
theories/PropsRead.v
theories/PropsRefuse.v
theories/PropsRender.v
theories/PropsSecret.v
theories/PropsSeed.v
theories/PropsSeek.v
theories/PropsServe.v
theories/PropsShards.v
theories/PropsSign.v
theories/PropsSilent.v
theories/PropsSize.v
theories/PropsSpread.v
theories/PropsStall.v
theories/PropsStd.v
theories/PropsTable.v
theories/PropsTalk.v
theories/PropsText.v
theories/PropsUtil.v
theories/PropsVersion.v
theories/PropsVolume.v
theories/PropsWallet.v
theories/PropsWatch.v
theories/PropsWire.v
theories/PropsX962.v
theories/PseudoPrime.v
theories/PyBase.v
theories/PyLoop.v
theories/PyTextProofs.v
theories/PyVal.v
theories/Recip.v
theories/Rfc6979Proofs.v
theories/Rfc6979Spec.v
theories/SeedModel.v
theories/SignProofs.v
theories/TableModel.v
theories/TextModel.v
theories/TextProofs.v
theories/TotientProofs.v
theories/UtilModel.v
theories/UtilProofs.v
theories/VersionModel.v
theories/WalletModel.v
theories/WalletProofs.v
theories/WireProofs.v
theories/WireSpec.v
theories/X962Model.v
theories/ZpTheory.v
