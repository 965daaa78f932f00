-Q theories Verif
theories/Base.v
theories/Config.v
theories/Structs.v
theories/Keys.v
theories/Utils.v
theories/Memo.v
theories/Toy.v
theories/Samples.v
theories/CodecProofs.v
theories/PolicyProofs.v
theories/UtilsProofs.v
theories/MemoProofs.v
theories/MovedAsset.v
theories/PropsData.v
theories/PropsChecks.v
theories/Plonk.v
theories/Witness.v
theories/Circuits.v
theories/CircuitLogic.v
theories/Relation.v
theories/GadgetProofs.v
theories/StructGadgetProofs.v
theories/SpendGadgetProofs.v
theories/TransferCircuitProofs.v
theories/MintCircuitProofs.v
theories/FreezeCircuitProofs.v
theories/CircuitShape.v
theories/CircuitTheorems.v
theories/Snark.v
theories/Notes.v
theories/NoteProofs.v
theories/NoteGen.v
theories/NoteGen2.v
theories/ToySnark.v
theories/NoteThms.v
theories/Security.v
theories/NoteSamples.v
theories/Accepted.v
theories/Decide.v
theories/CircuitFacts.v
theories/PropsCircuit.v
theories/Serde.v
theories/SerdeProofs.v
theories/ToySer.v
theories/NoteFacts.v
theories/PropsNotes.v
theories/NoteLive.v
theories/NoteLive2.v
theories/PropsLive.v
theories/Params.v
theories/ParamsProofs.v
theories/PropsParams.v
theories/ParamHistory.v
theories/PropsDirectory.v
theories/Ledger.v
theories/LedgerSpec.v
theories/LedgerProofs.v
theories/LedgerSupply.v
theories/LedgerBlocks.v
theories/LedgerSamples.v
theories/LedgerForged.v
theories/PropsLedger.v
theories/NoPanic.v
theories/PropsPanic.v
theories/FreezeMap.v
theories/MemoHide.v
theories/PropsMore.v
theories/GenParams.v
theories/PropsGen.v
theories/Wallet.v
theories/WalletSpec.v
theories/WalletProofs.v
theories/WalletPay.v
theories/WalletPay2.v
theories/WalletSamples.v
theories/PropsWallet.v
theories/Roles.v
theories/RolesView.v
theories/RolesSpec.v
theories/RolesIssuer.v
theories/RolesViewer.v
theories/IssuerSamples.v
theories/ViewerSamples.v
theories/PropsIssuer.v
theories/PropsViewer.v
theories/FreezerSpec.v
theories/FreezerBooks.v
theories/FreezerCalls.v
theories/FreezerRun.v
theories/FreezerHistory.v
theories/FreezerBlocks.v
theories/FreezerLive.v
theories/FreezerEffect.v
theories/FreezerSamples.v
theories/FreezerSamples2.v
theories/PropsFreezer.v
theories/Builder.v
theories/BuilderSpec.v
theories/BuilderLive.v
theories/BuilderProofs.v
theories/BuilderChain.v
theories/BuilderRand.v
theories/BuilderOther.v
theories/BuilderCallSpec.v
theories/BuilderCalls.v
theories/BuilderTxns.v
theories/BuilderWit.v
theories/BuilderWitProofs.v
theories/BuilderWitTransfer.v
theories/BuilderWitList.v
theories/BuilderEnd.v
theories/BuilderSamples.v
theories/PropsBuilder.v
theories/PropsBuilder2.v
theories/PropsBuilder3.v
theories/WorldSpec.v
theories/WorldProofs.v
theories/WorldSolvent.v
theories/WorldSamples.v
theories/PropsWorld.v
theories/Bench.v
theories/BenchProofs.v
theories/BenchTable.v
theories/PropsBench.v
theories/ExactSpec.v
theories/Exact.v
theories/Proposer.v
theories/Misfiled.v
theories/PropsExact.v
theories/CanonSpec.v
theories/Canon.v
theories/Text.v
theories/TextProofs.v
theories/PropsText.v
theories/AmountText.v
theories/PropsAmount.v
theories/Curves.v
theories/CircuitTotal.v
theories/ParamSize.v
theories/PropsShape.v
theories/Collections.v
theories/CollectionsProofs.v
theories/PropsCollections.v
theories/ScheduleSpec.v
theories/Schedule.v
theories/PropsSchedule.v
theories/Waiting.v
theories/PropsWaiting.v
theories/OriginSpec.v
theories/Origin.v
theories/PropsOrigin.v
theories/MintRight.v
theories/PropsMintRight.v
theories/SizesSpec.v
theories/Sizes.v
theories/PropsSizes.v
theories/LibrarySpec.v
theories/Library.v
theories/PropsLibrary.v
theories/ClassSpec.v
theories/Class.v
theories/PropsClass.v
theories/PolicyReach.v
theories/PropsReach.v
