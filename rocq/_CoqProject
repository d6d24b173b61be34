-Q theories Verif
theories/Base.v
theories/Group.v
theories/Spec.v
theories/Tiny.v
theories/GroupFacts.v
theories/Codec.v
theories/Hash.v
theories/DLog.v
theories/ElGamal.v
theories/ZK.v
theories/Poly.v
theories/ZKFacts.v
theories/ZKSound.v
theories/PolyFacts.v
theories/CodecFacts.v
theories/HashFacts.v
theories/ElGamalFacts.v
theories/DLogFacts.v
theories/GroupThms.v
theories/PropsGroup.v
theories/CryptoThms.v
theories/PropsCrypto.v
theories/ListFacts.v
theories/Manifest.v
theories/Ballot.v
theories/Encrypt.v
theories/SpecElection.v
theories/Constants.v
theories/Primality.v
theories/Samples.v
theories/ManifestThms.v
theories/ConstantsFacts.v
theories/PropsManifest.v
theories/EncryptFacts.v
theories/BallotFacts.v
theories/EncryptThms.v
theories/PropsEncrypt.v
theories/Box.v
theories/Tally.v
theories/SpecTally.v
theories/TallyFacts.v
theories/TallyThms.v
theories/TallyMore.v
theories/BoxFacts.v
theories/HonestFacts.v
theories/TallySamples.v
theories/BoxTallyRefuted.v
theories/Tighten.v
theories/PropsTally.v
theories/DecryptSecrets.v
theories/SecretsFacts.v
theories/PropsDecrypt.v
theories/Ceremony.v
theories/SpecCeremony.v
theories/MediatorFacts.v
theories/CeremonyFacts.v
theories/CeremonyThms.v
theories/PropsCeremony.v
theories/Shares.v
theories/SpecShares.v
theories/SharesFacts.v
theories/ShareRun.v
theories/SharesThms.v
theories/SharesMore.v
theories/DMediatorFacts.v
theories/SharesSamples.v
theories/PropsShares.v
theories/Verify.v
theories/SpecVerify.v
theories/VerifyFacts.v
theories/VerifySamples.v
theories/PropsVerify.v
theories/Compact.v
theories/SpecCompact.v
theories/CompactFacts.v
theories/CompactSamples.v
theories/PropsCompact.v
theories/SpecEndToEnd.v
theories/EndToEnd.v
theories/EndToEndSamples.v
theories/PropsEndToEnd.v
theories/GuiCeremony.v
theories/SpecGui.v
theories/GuiFacts.v
theories/GuiJoin.v
theories/GuiLive.v
theories/GuiRounds.v
theories/GuiThms.v
theories/GuiStuck.v
theories/GuiDemo.v
theories/PropsGui.v
theories/GuiUpload.v
theories/SpecUpload.v
theories/UploadFacts.v
theories/UploadCounts.v
theories/UploadRead.v
theories/UploadSamples.v
theories/PropsUpload.v
theories/GuiDecrypt.v
theories/GuiDecTally.v
theories/GuiDecShares.v
theories/GuiDecPure.v
theories/SpecGuiDecrypt.v
theories/GuiDecRun.v
theories/GuiDecInv.v
theories/GuiDecThms.v
theories/GuiDecSamples.v
theories/PropsGuiDecrypt.v
theories/Report.v
theories/SpecReport.v
theories/ReportFacts.v
theories/ReportLink.v
theories/ReportPages.v
theories/ReportSamples.v
theories/PropsReport.v
theories/GuiElection.v
theories/SpecGuiElection.v
theories/GuiElFacts.v
theories/GuiElReady.v
theories/GuiElSamples.v
theories/PropsGuiElection.v
theories/Cli.v
theories/SpecCli.v
theories/CliPaths.v
theories/CliDec.v
theories/CliRun.v
theories/CliE2e.v
theories/CliFiles.v
theories/CliNames.v
theories/CliThms.v
theories/CliSamples.v
theories/PropsCli.v
theories/CliPipe.v
theories/CliVotes.v
theories/CliPipeThms.v
theories/CliPipeSamples.v
theories/PropsPipe.v
theories/Mark.v
theories/SpecMark.v
theories/MarkFacts.v
theories/MarkThms.v
theories/MarkSamples.v
theories/PropsMark.v
theories/GuiRecord.v
theories/SpecGuiRecord.v
theories/GuiRecFacts.v
theories/GuiRecSamples.v
theories/PropsGuiRecord.v
theories/SpecRogue.v
theories/RogueFacts.v
theories/RogueThms.v
theories/PropsRogue.v
theories/GuiText.v
theories/SpecGuiText.v
theories/GuiTextFacts.v
theories/PropsGuiText.v
theories/GuiWatch.v
theories/SpecGuiWatch.v
theories/GuiWatchFacts.v
theories/GuiWatchThms.v
theories/GuiWatchEnds.v
theories/PropsGuiWatch.v
theories/Equality.v
theories/SpecEquality.v
theories/EqualityFacts.v
theories/EqualityThms.v
theories/EqualitySamples.v
theories/PropsEquality.v
theories/StandardPower.v
theories/StandardFacts.v
theories/PropsStandard.v
theories/GuiDecWatch.v
theories/SpecGuiDecWatch.v
theories/GuiDecWatchFacts.v
theories/GuiDecWatchThms.v
theories/GuiDecWatchEnds.v
theories/GuiDecWatchSamples.v
theories/PropsGuiDecWatch.v
theories/SpecCopy.v
theories/CopyFacts.v
theories/CopyThms.v
theories/CopySamples.v
theories/PropsCopy.v
theories/SampleGen.v
theories/SpecSample.v
theories/AccFacts.v
theories/SampleFacts.v
theories/SampleThms.v
theories/SampleSamples.v
theories/PropsSample.v
theories/Dispute.v
theories/SpecDispute.v
theories/DisputeThms.v
theories/PropsDispute.v
theories/Wizard.v
theories/SpecWizard.v
theories/WizardThms.v
theories/WizardSamples.v
theories/PropsWizard.v
theories/GuiTallies.v
theories/SpecTallies.v
theories/TalliesThms.v
theories/TalliesSamples.v
theories/PropsTallies.v
theories/FakeBallot.v
theories/PropsFake.v
theories/KcList.v
theories/KcListThms.v
theories/PropsKcList.v
theories/KcBounds.v
theories/PropsKcBounds.v
theories/KcEndless.v
theories/PropsKcEndless.v
