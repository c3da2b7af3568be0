-Q theories Verif
theories/Base.v
theories/PyStr.v
theories/Utf8.v
theories/Base64.v
theories/Env.v
theories/Prog.v
theories/Chain.v
theories/Gpg.v
theories/Mime.v
theories/States.v
theories/Recommendation.v
theories/Account.v
theories/Cmdline.v
theories/Commands.v
theories/Bot.v
theories/MimeTree.v
theories/Fs.v
theories/Api.v
theories/Refine.v
theories/Steps.v
theories/StepFacts.v
theories/Exec.v
theories/ApiScope.v
theories/Toy.v
theories/Spec.v
theories/Obs.v
theories/StoreFacts.v
theories/Crash.v
theories/Conc.v
theories/StoreProofs.v
theories/Demo.v
theories/PeerSpec.v
theories/Incoming.v
theories/PeerFacts.v
theories/PeerProofs.v
theories/PeerProofs2.v
theories/PeerProofs3.v
theories/PeerProofs4.v
theories/HeaderSpec.v
theories/HeaderProofs.v
theories/RecSpec.v
theories/RecProofs.v
theories/Quiet.v
theories/OutSpec.v
theories/OutProofs.v
theories/OutProofs2.v
theories/GossipProofs.v
theories/AcctSpec.v
theories/AcctFacts.v
theories/AcctProofs.v
theories/AcctProofs2.v
theories/Rings.v
theories/ImportProofs.v
theories/CmdSpec.v
theories/CmdProofs.v
theories/CmdProofs2.v
theories/CliSpec.v
theories/CliProofs.v
theories/CliProofs2.v
theories/CliProofs3.v
theories/PropsStore.v
theories/PropsPeer.v
theories/PropsRec.v
theories/PropsHeader.v
theories/PropsOut.v
theories/PropsAcct.v
theories/PropsCli.v
theories/PropsCmd.v
theories/TalkSpec.v
theories/TalkProofs.v
theories/GpgUse.v
theories/PropsTalk.v
theories/IndepSpec.v
theories/Indep.v
theories/PropsIndep.v
theories/OutAgain.v
theories/GpgSpec.v
theories/GpgText.v
theories/ProgProofs.v
theories/VersionProofs.v
theories/GpgProofs.v
theories/KeySpec.v
theories/KeyText.v
theories/KeyProofs.v
theories/HandleProofs.v
theories/PropsAgain.v
theories/PropsGpg.v
theories/PropsProg.v
theories/PropsKey.v
theories/FailSpec.v
theories/FailProofs.v
theories/CaseSpec.v
theories/CaseProofs.v
theories/PropsFail.v
theories/RealSpec.v
theories/RealProofs.v
theories/PropsReal.v
theories/ToldSpec.v
theories/ToldProofs.v
theories/ToldProofs2.v
theories/ToldProofs3.v
theories/PropsTold.v
theories/PropsCase.v
theories/Plugins.v
theories/PluginSpec.v
theories/PluginProofs.v
theories/PropsPlugin.v
theories/Reader.v
theories/ReaderSpec.v
theories/ReaderProofs.v
theories/PropsReader.v
theories/GpgMore.v
theories/GpgMoreSpec.v
theories/GpgMoreProofs.v
theories/PropsMore.v
theories/VocabSpec.v
theories/VocabProofs.v
theories/PropsVocab.v
theories/TwiceProofs.v
theories/PropsTwice.v
theories/ListsSpec.v
theories/ListsProofs.v
theories/PropsLists.v
theories/MinimSpec.v
theories/MinimProofs.v
theories/PropsMinim.v
theories/BotCommand.v
theories/BotSpec.v
theories/BotProofs.v
theories/PropsBot.v
theories/Disk.v
theories/DiskSpec.v
theories/DiskProofs.v
theories/PropsDisk.v
theories/Click.v
theories/ClickSpec.v
theories/ClickProofs.v
theories/PropsClick.v
theories/WatchSpec.v
theories/WatchProofs.v
theories/PropsWatch.v
theories/Live.v
theories/LiveSpec.v
theories/LiveProofs.v
theories/PropsLive.v
theories/Reads.v
theories/ReadsSpec.v
theories/ReadsProofs.v
theories/PropsReads.v
theories/SeenSpec.v
theories/SeenProofs.v
theories/PropsSeen.v
theories/AudienceSpec.v
theories/AudienceProofs.v
theories/PropsAudience.v
theories/LostSpec.v
theories/LostProofs.v
theories/PropsLost.v
theories/ConvSpec.v
theories/ConvProofs.v
theories/PropsConv.v
theories/Group.v
theories/GroupProofs.v
theories/PropsGroup.v
theories/RecObj.v
theories/RecObjProofs.v
theories/PropsRecObj.v
theories/EmailText.v
theories/EmailSpec.v
theories/EmailProofs.v
theories/EmailUse.v
theories/PropsEmail.v
theories/WireSpec.v
theories/WireProofs.v
theories/PropsWire.v
theories/KillSpec.v
theories/KillProofs.v
theories/KillProofs2.v
theories/KillProofs3.v
theories/PropsKill.v
