-Q theories Verif
theories/Prog.v
theories/NumModel.v
theories/NumBits.v
theories/NumFun.v
theories/NumSim.v
theories/NumInplace.v
theories/NumOrder.v
theories/History.v
theories/NumSpec.v
theories/NumAbs.v
theories/NumPropProofs.v
theories/Properties_num.v
theories/NumNavSpec.v
theories/NumNavProofs.v
theories/Properties_numnav.v
theories/RbModel.v
theories/RbSpec.v
theories/RbFun.v
theories/RbFunIns.v
theories/RbFunDel.v
theories/RbSim.v
theories/RbSimFix.v
theories/RbSimIns.v
theories/RbSimOps.v
theories/RbSimDel.v
theories/RbSimDel2.v
theories/RbAbs.v
theories/RbHang.v
theories/StrSpec.v
theories/StrAbs.v
theories/StrPropProofs.v
theories/Properties_strtree.v
theories/DomModel.v
theories/DomSpec.v
theories/DomCodec.v
theories/DomNames.v
theories/DomPropProofs.v
theories/Properties_domain.v
theories/DlModel.v
theories/DlSpec.v
theories/DlAbs.v
theories/DlPropProofs.v
theories/Properties_dltree.v
theories/DtModel.v
theories/DtSpec.v
theories/DtFun.v
theories/DtSim.v
theories/DtSim2.v
theories/DtSim3.v
theories/DtSim4.v
theories/DtAbs.v
theories/DtPropProofs.v
theories/Properties_domaintree.v
theories/NumFoot.v
theories/IpModel.v
theories/IpSpec.v
theories/IpBits.v
theories/IpAbs.v
theories/IpAbs2.v
theories/IpAbs3.v
theories/IpAbs4.v
theories/IpEnum.v
theories/IpHist.v
theories/IpPropProofs.v
theories/Properties_iptree.v
theories/NumLoc.v
theories/IpUpdSpec.v
theories/IpUpd.v
theories/IpUpd2.v
theories/IpUpd3.v
theories/IpUpd4.v
theories/IpUpdProofs.v
theories/Properties_iptree2.v
theories/UxModel.v
theories/UxAbs.v
theories/UxAbs2.v
theories/UxAbs3.v
theories/UxEnum.v
theories/UxSpec.v
theories/UxHist.v
theories/UxPropProofs.v
theories/Properties_uxtree.v
theories/Concurrent.v
theories/ConcProofs.v
theories/Properties_concurrent.v
theories/Channel.v
theories/ChanModel.v
theories/ChanProofs.v
theories/ChanPropProofs.v
theories/Properties_channel.v
theories/ChanUpdModel.v
theories/ChanUpdProofs.v
theories/ChanUpdProps.v
theories/SliceModel.v
theories/SliceSpec.v
theories/SliceProofs.v
theories/SliceProps.v
theories/Properties_updchan.v
theories/CallModel.v
theories/CallSpec.v
theories/CallProofs.v
theories/Properties_calling.v
theories/WorkModel.v
theories/WorkSpec.v
theories/WorkProofs.v
theories/CopyProofs.v
theories/Properties_working.v
theories/Opaque.v
theories/ShareSpec.v
theories/ShareProofs.v
theories/Properties_sharing.v
theories/MixProofs.v
theories/Properties_mixed.v
theories/NumShare.v
theories/VersSpec.v
theories/VersProofs.v
theories/Properties_versions.v
theories/Properties_slice.v
theories/DotModel.v
theories/DotSpec.v
theories/DotProofs.v
theories/DotPropProofs.v
theories/Properties_dot.v
theories/Handle.v
theories/RbHandle.v
theories/IpHandle.v
theories/Properties_handle.v
theories/DtOwn.v
theories/DtOwnSpec.v
theories/DtOwnAbs.v
theories/Properties_dtmix.v
theories/CostSpec.v
theories/Cost.v
theories/CostRb.v
theories/CostProps.v
theories/CostDt.v
theories/CostNum.v
theories/CostTries.v
theories/Properties_cost.v
theories/ZeroSpec.v
theories/ZeroProofs.v
theories/StrAny.v
theories/CmpPropProofs.v
theories/Properties_compare.v
theories/EtcModel.v
theories/EtcSpec.v
theories/EtcProofs.v
theories/Properties_etc.v
theories/DotText.v
theories/DotTextSpec.v
theories/DotTextProofs.v
theories/DotTextProps.v
theories/DotTextHist.v
theories/Properties_dottext.v
theories/ReplayText.v
theories/Replay_strtree.v
theories/Replay_strtree8.v
theories/Replay_dltree.v
theories/Replay_domaintree.v
theories/Replay_domaintree8.v
theories/Replay_numtree32.v
theories/Replay_numtree64.v
theories/Replay_iptree.v
theories/Replay_iptree8.v
theories/Replay_domain.v
theories/IpKinds.v
theories/IpKinds2.v
theories/IpKinds3.v
theories/IpVersSpec.v
theories/IpVersProofs.v
theories/Properties_ip_versions.v
theories/IpKinds4.v
theories/IpAllSpec.v
theories/IpAllProofs.v
theories/Properties_ip_all.v
theories/OpaqueBy.v
theories/IpDeriveModel.v
theories/IpDeriveSpec.v
theories/IpDeriveProofs.v
theories/Properties_ip_derive.v
theories/ChanDeriveModel.v
theories/ChanDeriveProofs.v
theories/Properties_derive_chan.v
theories/StaleSpec.v
theories/RbStale.v
theories/RbStaleProofs.v
theories/Properties_stale.v
theories/UxKinds.v
theories/UxKinds2.v
theories/UxKinds3.v
theories/UxOpaque.v
theories/UxVersSpec.v
theories/UxVersProofs.v
theories/Properties_ux_versions.v
theories/Gor.v
theories/OwnProofs.v
theories/Properties_own.v
theories/NumExact.v
theories/StampSpec.v
theories/StampProofs.v
theories/Properties_stamp.v
theories/StampTree.v
theories/IpStampSpec.v
theories/IpStamp.v
theories/IpStamp2.v
theories/IpStamp3.v
theories/IpStampProofs.v
theories/Properties_ip_stamp.v
theories/UxStampSpec.v
theories/UxStamp.v
theories/UxStamp2.v
theories/UxStamp3.v
theories/UxStampProofs.v
theories/Properties_ux_stamp.v
theories/IpRenewSpec.v
theories/IpRenew.v
theories/IpRenewProofs.v
theories/IpRenewProofs2.v
theories/Properties_ip_renew.v
theories/HandleSpec.v
theories/HandleProofs.v
theories/HandleProofs2.v
theories/Properties_kept.v
theories/LoopSpec.v
theories/LoopProofs.v
theories/Properties_loop.v
theories/ApartSpec.v
theories/ApartProofs.v
theories/Properties_apart.v
theories/WatchSpec.v
theories/WatchProofs.v
theories/Properties_watch.v
