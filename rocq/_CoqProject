-Q theories Verif
theories/Base.v
theories/Constants.v
theories/SpecMeld.v
theories/Naki.v
theories/NakiProofs.v
theories/NakiLemmas.v
theories/NakiCore.v
theories/NakiLemmas2.v
theories/PropsNaki.v
theories/Tokens.v
theories/GameInfo.v
theories/SpecTokens.v
theories/TokensLemmas.v
theories/PropsTokens.v
theories/Decision.v
theories/SpecDecision.v
theories/DecisionProofs.v
theories/DecisionLemmas.v
theories/PropsDecision.v
theories/Agari.v
theories/Process.v
theories/SpecRound.v
theories/VecLemmas.v
theories/RoundLemmas.v
theories/RoundInv.v
theories/RoundTiles.v
theories/RoundInit.v
theories/RoundBook.v
theories/RoundFlags.v
theories/RoundSplit.v
theories/RoundHalf.v
theories/RoundFacts.v
theories/SpecTurn.v
theories/RoundQuery.v
theories/RoundCount.v
theories/SpecLabels.v
theories/RoundLabels.v
theories/RoundMelds.v
theories/SpecAgari.v
theories/AgariLemmas.v
theories/TurnFacts.v
theories/RoundExamples.v
theories/PropsRound.v
theories/PropsTurn.v
theories/PropsAgari.v
theories/Shanten.v
theories/SpecShanten.v
theories/ShantenSearch.v
theories/ShantenLemmas.v
theories/ShantenWins.v
theories/ShantenReds.v
theories/ShantenMarked.v
theories/PropsShanten.v
theories/DataLoader.v
theories/SpecData.v
theories/DataLemmas.v
theories/PropsData.v
theories/Train.v
theories/SpecTrain.v
theories/TrainLemmas.v
theories/TrainLatest.v
theories/LearningRate.v
theories/PropsTrain.v
theories/Scrape.v
theories/PropsScrape.v
theories/Tensor.v
theories/SpecTensor.v
theories/TensorLemmas.v
theories/TensorRound.v
theories/PropsTensor.v
theories/Encoder.v
theories/EncoderLemmas.v
theories/EncoderSum.v
theories/SpecEncoder.v
theories/EncoderSumLemmas.v
theories/PropsEncoder.v
theories/Network.v
theories/NetworkLemmas.v
theories/SpecNetwork.v
theories/NetworkForward.v
theories/NetworkRound.v
theories/PropsNetwork.v
theories/SpecDistance.v
theories/ShantenDistance.v
theories/ShantenDistance2.v
theories/PropsDistance.v
theories/PropsBatch.v
theories/SpecOffers.v
theories/RoundOffers.v
theories/PropsOffers.v
theories/TrainLoop.v
theories/SpecTrainLoop.v
theories/TrainLoopLemmas.v
theories/PropsTrainLoop.v
theories/SpecTable.v
theories/TableFacts.v
theories/PropsTable.v
theories/ScrapeRun.v
theories/SpecScrape.v
theories/ScrapeLemmas.v
theories/PropsScrapeRun.v
theories/TrainDirs.v
theories/PropsTrainDirs.v
theories/DecisionExact.v
theories/NakiExact.v
theories/PropsReact.v
theories/TrainComplete.v
theories/PropsTrainComplete.v
theories/Cli.v
theories/SpecCli.v
theories/CliLemmas.v
theories/PropsCli.v
theories/NetworkProbe.v
theories/NetworkSeat.v
theories/ShantenSymmetry.v
theories/ShantenRename.v
theories/PropsSymmetry.v
theories/ShantenReady.v
theories/ShantenTenpai.v
theories/PropsReady.v
theories/SpecHidden.v
theories/HiddenLemmas.v
theories/PropsHidden.v
theories/SpecReads.v
theories/ReadsLemmas.v
theories/PropsReads.v
theories/SpecFuriten.v
theories/PropsFuriten.v
theories/SpecSeat.v
theories/PropsSeat.v
theories/SpecWinLabel.v
theories/PropsWinLabel.v
theories/SpecCopies.v
theories/CopiesLemmas.v
theories/PropsCopies.v
theories/SpecDora.v
theories/PropsDora.v
theories/LoaderLog.v
theories/PropsLoaderLog.v
theories/SideRuns.v
theories/SpecSide.v
theories/SideLemmas.v
theories/PropsSide.v
theories/SideScrape.v
theories/PropsSideScrape.v
theories/LogFile.v
theories/PropsLogFile.v
theories/PropsForbidden.v
theories/PropsForced.v
theories/PropsRepair.v
theories/NakiRepr.v
theories/PropsNakiRepr.v
theories/PropsActions.v
theories/PropsOutputs.v
theories/PropsKanLabel.v
theories/PropsKanTarget.v
theories/PropsCallTarget.v
theories/SpecLegal.v
theories/RoundProgress.v
theories/RoundLegal.v
theories/PropsLegal.v
theories/PropsLegalTrain.v
theories/RoundExact.v
theories/PropsLegalExact.v
theories/CopiesAccepted.v
theories/PropsCopiesLegal.v
theories/SpecAttention.v
theories/AttentionLemmas.v
theories/SpecState.v
theories/StateForward.v
theories/AttentionForward.v
theories/PropsAttention.v
theories/SpecBound.v
theories/PropsBound.v
theories/SpecHeads.v
theories/PropsHeads.v
theories/PropsOwnTurn.v
