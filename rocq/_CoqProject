-Q theories Verif
theories/Base.v
theories/OMap.v
theories/UMap.v
theories/MetaVote.v
theories/MVView.v
theories/MVBase.v
theories/MVSpec.v
theories/MVSpecVote.v
theories/MVVotes.v
theories/MVInv.v
theories/MVCases.v
theories/MVAuth.v
theories/MVPos.v
theories/MVClear.v
theories/MVRelock.v
theories/MVTotals.v
theories/MVVoteEff.v
theories/MVIso.v
theories/MVMirror.v
theories/MVVoteViews.v
theories/MVSpecMoney.v
theories/MVFrame.v
theories/MVClaims.v
theories/MVMoney.v
theories/MVTime.v
theories/MVDeleg.v
theories/MVMisc.v
theories/MVSpecAccept.v
theories/MVAccept.v
theories/MVAccept2.v
theories/MVAccept3.v
theories/MVAccept4.v
theories/MVSpecStep.v
theories/MVStep.v
theories/MVStep2.v
theories/MVStep3.v
theories/MVStep4.v
theories/MVStep5.v
theories/MVStep6.v
theories/MVStep7.v
theories/MVStep8.v
theories/MVSpecFits.v
theories/MVFits.v
theories/MVFits2.v
theories/MVFits3.v
theories/MVFits4.v
theories/MVSpecSmall.v
theories/MVSmall.v
theories/MVSmall2.v
theories/MVSpecBatch.v
theories/MVSpecPrivate.v
theories/MVPrivate.v
theories/MVPrivate2.v
theories/MVBatch.v
theories/MVBatch2.v
theories/MVBatch3.v
theories/MVSpecViews.v
theories/MVViews.v
theories/Mpip.v
theories/MpipSpec.v
theories/MpipInv.v
theories/MpipLife.v
theories/MpipTime.v
theories/MpipView.v
theories/MpipSpecStep.v
theories/MpipStep.v
theories/MpipStep2.v
theories/MpipSpecViews.v
theories/MpipViews.v
theories/MpipRefuted.v
theories/Collections.v
theories/KV.v
theories/KVProofs.v
theories/Migrate.v
theories/MigrateProofs.v
theories/Flat.v
theories/FlatProofs.v
theories/Token.v
theories/TokenProofs.v
theories/TokenRoles.v
theories/World.v
theories/WorldSpec.v
theories/WorldProofs.v
theories/WorldHeard.v
theories/WorldSmall.v
theories/MVSpecExit.v
theories/MVExit.v
theories/MVSpecLimits.v
theories/MVLimits.v
theories/Gov.v
theories/GovSpec.v
theories/GovProofs.v
theories/Near.v
theories/MVWitness.v
theories/MVRefuted.v
theories/Props_Power.v
theories/Props_Positions.v
theories/Props_Votes.v
theories/Props_Money.v
theories/Props_Access.v
theories/Props_Mpip.v
theories/Props_Collections.v
theories/Props_KV.v
theories/Props_Migrate.v
theories/Props_Token.v
theories/Props_World.v
theories/Props_Exit.v
theories/Props_Limits.v
theories/Props_MpipView.v
theories/Props_Gov.v
theories/Props_Views.v
theories/Props_Storage.v
theories/Props_Near.v
theories/Props_TokenRoles.v
theories/Props_Accept.v
theories/Props_Step.v
theories/Props_Ledger.v
theories/Props_MpipStep.v
theories/Props_Board.v
theories/Props_Fits.v
theories/Props_Small.v
theories/Props_Batch.v
theories/Props_Private.v
theories/MVLog.v
theories/MVSpecLog.v
theories/MVLogProofs.v
theories/MVLog2.v
theories/MVLog3.v
theories/MVLogText.v
theories/Props_Log.v
theories/TokenLog.v
theories/WorldLog.v
theories/Props_WorldLog.v
theories/MVCover.v
theories/MVBooks.v
theories/WorldCover.v
theories/Props_Cover.v
theories/WorldExact.v
theories/Props_Exact.v
theories/WorldSafe.v
theories/Props_Safe.v
theories/TokenNear.v
theories/Props_TokenNear.v
theories/WorldExit.v
theories/Props_WorldExit.v
theories/MVSpecSized.v
theories/MVSized.v
theories/Props_Sized.v
theories/MpipSpecSized.v
theories/MpipSized.v
theories/Props_MpipSized.v
theories/Json.v
theories/JsonSpec.v
theories/JsonProofs.v
theories/MVSpecMsg.v
theories/MVMsg.v
theories/Props_Json.v
theories/Sys.v
theories/SysSpec.v
theories/SysProofs.v
theories/Props_Sys.v
theories/Wire.v
theories/WireSpec.v
theories/WireProofs.v
theories/Post.v
theories/PostSpec.v
theories/PostProofs.v
theories/Props_Post.v
theories/Entry.v
theories/EntrySpec.v
theories/EntryProofs.v
theories/Props_Entry.v
theories/MpipSpecOrder.v
theories/MpipOrder.v
theories/Props_MpipOrder.v
theories/Ask.v
theories/AskSpec.v
theories/AskProofs.v
theories/AskMv.v
theories/AskBoard.v
theories/AskRest.v
theories/Props_Ask.v
theories/KVBytes.v
theories/KVBytesSpec.v
theories/KVBytesProofs.v
theories/ReadLen.v
theories/KVShort.v
theories/Props_KVBytes.v
theories/TokBytes.v
theories/TokBytesSpec.v
theories/TokBytesProofs.v
theories/Props_TokBytes.v
theories/BoardBytes.v
theories/BoardMaps.v
theories/BoardStore.v
theories/BoardSim.v
theories/BoardBytesSpec.v
theories/BoardText.v
theories/BoardBytesProofs.v
theories/Props_BoardBytes.v
theories/MVBytes.v
theories/MVCells.v
theories/MVStore.v
theories/MVRep.v
theories/MVSim.v
theories/MVPositions.v
theories/MVBallots.v
theories/MVMethods.v
theories/MVBytesSpec.v
theories/MVBytesProofs.v
theories/Props_MVBytes.v
theories/VoteText.v
theories/VoteTextSpec.v
theories/VoteTextProofs.v
theories/Props_VoteText.v
theories/MVAsk.v
theories/MVAskSpec.v
theories/MVAskProofs.v
theories/MVAskText.v
theories/Props_MVAsk.v
theories/MVUpgrade.v
theories/MVUpgradeSpec.v
theories/MVUpgradeProofs.v
theories/MVUpgradeText.v
theories/Props_MVUpgrade.v
