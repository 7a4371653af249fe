-Q theories Verif
theories/Accept.v
theories/AcceptProofs.v
theories/Base.v
theories/BinProofs.v
theories/BinRun.v
theories/Conf.v
theories/ConfFiles.v
theories/ConfLook.v
theories/ConfProofs.v
theories/ConfRun.v
theories/CrcProofs.v
theories/Dedup.v
theories/DedupProofs.v
theories/Descr.v
theories/ExFrame.v
theories/ExRouter.v
theories/Extract.v
theories/Frame.v
theories/FrameLink.v
theories/FrameProofs.v
theories/FrameProps.v
theories/FrameRefine.v
theories/Fsync.v
theories/Getopt.v
theories/Inet.v
theories/InetProofs.v
theories/LogAsk.v
theories/LogAsk2.v
theories/LogAsk3.v
theories/LogFile.v
theories/LogFileProofs.v
theories/LogHist.v
theories/LogInv.v
theories/LogLive.v
theories/LogLive2.v
theories/LogModes.v
theories/LogModes2.v
theories/LogMono.v
theories/LogOut.v
theories/LogPer.v
theories/LogRun.v
theories/LogSafe.v
theories/LogSpare.v
theories/LogStep.v
theories/LogWatch.v
theories/Loggers.v
theories/Main.v
theories/Mav.v
theories/Mkdir.v
theories/MkdirProofs.v
theories/ModeRun.v
theories/Names.v
theories/NamesProofs.v
theories/Num.v
theories/NumProofs.v
theories/Opts.v
theories/Pack.v
theories/Prop_Accept.v
theories/Prop_Append.v
theories/Prop_Args.v
theories/Prop_Ask.v
theories/Prop_BinLog.v
theories/Prop_BinRun.v
theories/Prop_Conf.v
theories/Prop_ConfSafe.v
theories/Prop_Datagram.v
theories/Prop_Dedup.v
theories/Prop_Descr.v
theories/Prop_Dialogue.v
theories/Prop_End.v
theories/Prop_Frame.v
theories/Prop_Fsync.v
theories/Prop_Hangup.v
theories/Prop_Inet.v
theories/Prop_Link.v
theories/Prop_LogFile.v
theories/Prop_LogModes.v
theories/Prop_LogOut.v
theories/Prop_Main.v
theories/Prop_Mkdir.v
theories/Prop_ModeRun.v
theories/Prop_NoLog.v
theories/Prop_Opts.v
theories/Prop_Others.v
theories/Prop_Report.v
theories/Prop_Router.v
theories/Prop_Router2.v
theories/Prop_Router3.v
theories/Prop_Router4.v
theories/Prop_Router5.v
theories/Prop_Safe.v
theories/Prop_Section.v
theories/Prop_Sender.v
theories/Prop_Start.v
theories/Prop_Stream.v
theories/Prop_TLog.v
theories/Prop_TeleRun.v
theories/Prop_Timers.v
theories/Prop_Tty.v
theories/Prop_ULAck.v
theories/Prop_ULRun.v
theories/Prop_ULog.v
theories/Prop_ULogEx.v
theories/Prop_ULogFile.v
theories/Prop_ULogFile2.v
theories/Prop_ULogNew.v
theories/Prop_Whole.v
theories/Prop_Writes.v
theories/Regex.v
theories/Report.v
theories/Router.v
theories/RouterActs.v
theories/RouterBytes.v
theories/RouterClose.v
theories/RouterCount.v
theories/RouterCtl.v
theories/RouterDedup.v
theories/RouterEnd.v
theories/RouterEnd2.v
theories/RouterFinish.v
theories/RouterFrame.v
theories/RouterHist.v
theories/RouterInv.v
theories/RouterLearn.v
theories/RouterLife.v
theories/RouterLife2.v
theories/RouterLife3.v
theories/RouterLife4.v
theories/RouterLife5.v
theories/RouterLives.v
theories/RouterLogs.v
theories/RouterOwn.v
theories/RouterRoute.v
theories/RouterRoute2.v
theories/RouterSafe.v
theories/RouterSafe2.v
theories/RouterSetup.v
theories/RouterStart.v
theories/RouterStays.v
theories/RouterStep.v
theories/RouterTarget.v
theories/RouterTimers.v
theories/RouterTimers2.v
theories/RouterTrace.v
theories/SectionProofs.v
theories/SpecAccept.v
theories/SpecArgs.v
theories/SpecAsk.v
theories/SpecConf.v
theories/SpecCrc.v
theories/SpecEnd.v
theories/SpecFrame.v
theories/SpecInet.v
theories/SpecLife.v
theories/SpecLink.v
theories/SpecLog.v
theories/SpecLogOut.v
theories/SpecNum.v
theories/SpecOwn.v
theories/SpecReport.v
theories/SpecRouter.v
theories/SpecSection.v
theories/SpecSession.v
theories/SpecStream.v
theories/SpecTalk.v
theories/SpecTty.v
theories/SpecULog.v
theories/SpecVehicle.v
theories/Sys.v
theories/TeleRun.v
theories/Timers.v
theories/TimersProofs.v
theories/Tty.v
theories/ULAppend.v
theories/ULRun.v
theories/ULog.v
theories/ULogMore.v
theories/ULogProofs.v
theories/ULogRun.v
theories/ULogStream.v
theories/ULogVehicle.v
theories/UartTold.v
