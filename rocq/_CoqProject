-Q theories Verif
theories/Base.v
theories/Wide.v
theories/Tags.v
theories/Irc.v
theories/Unescape.v
theories/BaseFacts.v
theories/WideFacts.v
theories/SimdFacts.v
theories/SpecIrc.v
theories/Samples.v
theories/SpecText.v
theories/IrcFacts.v
theories/Utf8Facts.v
theories/IrcProofs.v
theories/LineProofs.v
theories/PropsIrc.v
theories/PropsLine.v
theories/AccessProofs.v
theories/UnescapeProofs.v
theories/PropsUnescape.v
theories/PropsAccess.v
theories/MsgBase.v
theories/MsgTypes.v
theories/MsgNotice.v
theories/Message.v
theories/SpecMsg.v
theories/FieldFacts.v
theories/TypedFacts.v
theories/NoticeFacts.v
theories/MapFacts.v
theories/TypedProofs.v
theories/PropsTyped.v
theories/FieldProofs.v
theories/PropsField.v
theories/Common.v
theories/Client.v
theories/SpecClient.v
theories/RecvProofs.v
theories/PropsRecv.v
theories/SmallProofs.v
theories/PropsSmall.v
theories/SendProofs.v
theories/PropsSend.v
theories/HandshakeProofs.v
theories/ConnectProofs.v
theories/PropsConnect.v
theories/Bot.v
theories/SpecBot.v
theories/BotProofs.v
theories/PropsBot.v
theories/PropsHandshake.v
theories/Serde.v
theories/SerdeProofs.v
theories/PropsSerde.v
theories/SpecUnicode.v
theories/UnicodeProofs.v
theories/PropsUnicode.v
theories/Timed.v
theories/SpecTimed.v
theories/TimedProofs.v
theories/PropsTimed.v
theories/Getters.v
theories/SpecGetters.v
theories/GettersProofs.v
theories/PropsGetters.v
theories/Dbg.v
theories/Snapshots.v
theories/SpecDbg.v
theories/DbgFacts.v
theories/DbgValues.v
theories/DbgTyped.v
theories/LiftFacts.v
theories/DbgLine.v
theories/DbgProofs.v
theories/PropsDbg.v
theories/RepoTests.v
theories/Errors.v
theories/SpecErrors.v
theories/ErrorsProofs.v
theories/PropsErrors.v
theories/Xtask.v
theories/SpecXtask.v
theories/XtaskProofs.v
theories/PropsXtask.v
theories/Cmp.v
theories/SpecCmp.v
theories/CmpProofs.v
theories/PropsCmp.v
theories/SpecSerde.v
theories/ShapeProofs.v
theories/PropsShape.v
theories/Conn.v
theories/SpecConn.v
theories/ConnProofs.v
theories/PropsConn.v
theories/Readme.v
theories/SpecReadme.v
theories/ReadmeProofs.v
theories/PropsReadme.v
theories/Features.v
theories/SpecFeatures.v
theories/FeaturesProofs.v
theories/PropsFeatures.v
theories/SpecRfc.v
theories/RfcProofs.v
theories/PropsRfc.v
theories/SpecWrite.v
theories/WriteFacts.v
theories/WriteBack.v
theories/WriteProofs.v
theories/PropsWrite.v
theories/SpecSession.v
theories/SessionProofs.v
theories/HugeProofs.v
theories/PropsSession.v
theories/PropsHuge.v
theories/SpecParts.v
theories/PartsProofs.v
theories/PropsParts.v
theories/SpecSlice.v
theories/SliceProofs.v
theories/PropsSlice.v
theories/SpecQuote.v
theories/QuoteProofs.v
theories/PropsQuote.v
theories/SpecCut.v
theories/CutProofs.v
theories/PropsCut.v
theories/SpecFree.v
theories/FreeProofs.v
theories/PropsFree.v
theories/SpecMore.v
theories/MoreProofs.v
theories/PropsMore.v
theories/SpecBypass.v
theories/BypassProofs.v
theories/PropsBypass.v
theories/SpecKeep.v
theories/KeepProofs.v
theories/PropsKeep.v
theories/SpecBuilds.v
theories/BuildsProofs.v
theories/PropsBuilds.v
theories/SpecCrash.v
theories/CrashProofs.v
theories/PropsCrash.v
theories/SpecLong.v
theories/LongProofs.v
theories/PropsLong.v
theories/SpecAlike.v
theories/AlikeProofs.v
theories/PropsAlike.v
theories/SpecRounds.v
theories/RoundsProofs.v
theories/PropsRounds.v
theories/Cost.v
theories/CostProofs.v
theories/PropsCost.v
