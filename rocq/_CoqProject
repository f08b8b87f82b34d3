-Q theories Verif
theories/Base.v
theories/YencModel.v
theories/YencSpec.v
theories/YencProofs.v
theories/CrcModel.v
theories/CrcSpec.v
theories/CrcProofs.v
theories/NumFmt.v
theories/DecoderModel.v
theories/DecoderSpec.v
theories/DecoderProofs.v
theories/ArticleProofs.v
theories/AcceptProofs.v
theories/RawProofs.v
theories/Properties_Yenc.v
theories/Properties_Decoder.v
theories/CodecModel.v
theories/CodecSpec.v
theories/CodecProofs.v
theories/CodecProofs2.v
theories/CalendarModel.v
theories/CalendarSpec.v
theories/CalendarProofs.v
theories/Properties_Codec.v
theories/WildModel.v
theories/WildSpec.v
theories/WildProofs.v
theories/WildPosProofs.v
theories/TextProofs.v
theories/Properties_Text.v
theories/MoveModel.v
theories/MoveSpec.v
theories/MoveProofs.v
theories/MoveToProofs.v
theories/SortProofs.v
theories/Properties_QueueEdit.v
theories/InfoModel.v
theories/InfoSpec.v
theories/InfoProofs.v
theories/StatsModel.v
theories/StatsSpec.v
theories/StatsProofs.v
theories/StatsProofs2.v
theories/Properties_Stats.v
theories/VolumeModel.v
theories/VolumeSpec.v
theories/VolumeProofs.v
theories/VolumeProofs2.v
theories/VolumeProofs3.v
theories/VolumeProofs4.v
theories/SpeedProofs.v
theories/Properties_Volume.v
theories/SchedModel.v
theories/SchedSpec.v
theories/SchedProofs.v
theories/SchedProofs2.v
theories/LogModel.v
theories/LogSpec.v
theories/LogProofs.v
theories/Properties_Sched.v
theories/FeedModel.v
theories/FeedSpec.v
theories/FeedProofs.v
theories/FeedProofs2.v
theories/FeedProofs3.v
theories/FeedProofs4.v
theories/FeedProofs5.v
theories/Properties_Feed.v
theories/Rfc822Model.v
theories/Rfc822Spec.v
theories/Rfc822Proofs.v
theories/Properties_Rfc822.v
theories/GaloisModel.v
theories/GaloisSpec.v
theories/GaloisProofs.v
theories/RSModel.v
theories/RSSpec.v
theories/RSProofs.v
theories/RSProofs2.v
theories/RSProofs3.v
theories/Properties_Par2.v
theories/LineModel.v
theories/LineSpec.v
theories/LineProofs.v
theories/DiskModel.v
theories/DiskSpec.v
theories/DiskProofs.v
theories/DiskProofs2.v
theories/StateFileModel.v
theories/StateFileSpec.v
theories/StateFileProofs.v
theories/FileStateModel.v
theories/FileStateSpec.v
theories/FileStateProofs.v
theories/Properties_Disk.v
theories/PoolModel.v
theories/PoolSpec.v
theories/PoolProofs.v
theories/PoolProofs2.v
theories/PoolProofs3.v
theories/PoolProofs4.v
theories/PoolProofs5.v
theories/FetchModel.v
theories/FetchSpec.v
theories/FetchProofs.v
theories/FetchProofs2.v
theories/Properties_Pool.v
theories/StatusModel.v
theories/StatusSpec.v
theories/StatusProofs.v
theories/IdModel.v
theories/IdSpec.v
theories/IdProofs.v
theories/Properties_Status.v
theories/BufModel.v
theories/BufSpec.v
theories/BufProofs.v
theories/BufProofs2.v
theories/Properties_Buf.v
theories/NameModel.v
theories/NameSpec.v
theories/NameProofs.v
theories/ScanModel.v
theories/ScanSpec.v
theories/ScanProofs.v
theories/Properties_Name.v
theories/NextModel.v
theories/NextSpec.v
theories/NextProofs.v
theories/NextProofs2.v
theories/Properties_Next.v
theories/DupeModel.v
theories/DupeSpec.v
theories/DupeProofs.v
theories/Properties_Dupe.v
theories/ConnModel.v
theories/ConnSpec.v
theories/ConnProofs.v
theories/Properties_Conn.v
theories/WebModel.v
theories/WebSpec.v
theories/WebProofs.v
theories/WebProofs2.v
theories/WebProofs3.v
theories/Properties_Web.v
theories/RetryProofs.v
theories/WriterModel.v
theories/WriterSpec.v
theories/WriterProofs.v
theories/Properties_Writer.v
theories/NzbModel.v
theories/NzbSpec.v
theories/NzbProofs.v
theories/NzbProofs2.v
theories/NzbProofs3.v
theories/NzbProofs4.v
theories/NzbProofs5.v
theories/NzbProofs6.v
theories/NzbProofs7.v
theories/Properties_Nzb.v
theories/WebGetModel.v
theories/WebGetSpec.v
theories/WebGetProofs.v
theories/WebGetProofs2.v
theories/WebGetProofs3.v
theories/Properties_WebGet.v
theories/ParModel.v
theories/ParSpec.v
theories/ParProofs.v
theories/ParProofs2.v
theories/ParProofs3.v
theories/Properties_Par.v
theories/UnpackModel.v
theories/PostModel.v
theories/PostSpec.v
theories/PostProofs.v
theories/PostProofs2.v
theories/PostProofs3.v
theories/PostProofs4.v
theories/PostProofs5.v
theories/PostProofs6.v
theories/PostProofs7.v
theories/Properties_Post.v
theories/UnpackSpec.v
theories/UnpackProofs.v
theories/UnpackProofs2.v
theories/UnpackProofs3.v
theories/UnpackProofs4.v
theories/UnpackProofs5.v
theories/Properties_Unpack.v
theories/OptModel.v
theories/OptSpec.v
theories/OptProofs.v
theories/OptProofs2.v
theories/OptProofs3.v
theories/OptProofs4.v
theories/OptProofs5.v
theories/OptProofs6.v
theories/OptProofs7.v
theories/OptProofs8.v
theories/OptProofs9.v
theories/Properties_Options.v
theories/HistModel.v
theories/HistSpec.v
theories/HistProofs.v
theories/HistProofs2.v
theories/HistProofs3.v
theories/HistProofs4.v
theories/HistProofs5.v
theories/HistProofs6.v
theories/HistProofs7.v
theories/Properties_Hist.v
theories/RarModel.v
theories/RarSpec.v
theories/RarProofs.v
theories/RarProofs2.v
theories/RarProofs3.v
theories/RarProofs4.v
theories/RarProofs5.v
theories/RarProofs6.v
theories/RarProofs7.v
theories/Properties_Rar.v
theories/RarSetModel.v
theories/RarSetSpec.v
theories/RarSetProofs.v
theories/RarSetProofs2.v
theories/RarSetProofs3.v
theories/RarSetProofs4.v
theories/RarSetProofs5.v
theories/Properties_RarSet.v
theories/ParRenModel.v
theories/ParRenSpec.v
theories/ParRenProofs.v
theories/ParRenProofs2.v
theories/ParRenProofs3.v
theories/ParRenProofs4.v
theories/ParRenProofs5.v
theories/ParRenProofs6.v
theories/Properties_ParRen.v
theories/DRenModel.v
theories/DRenSpec.v
theories/DRenProofs.v
theories/DRenProofs2.v
theories/DRenProofs3.v
theories/DRenProofs4.v
theories/Properties_DRen.v
theories/CleanModel.v
theories/CleanSpec.v
theories/CleanProofs.v
theories/CleanProofs2.v
theories/CleanProofs3.v
theories/Properties_Clean.v
theories/QScrModel.v
theories/QScrSpec.v
theories/QScrProofs.v
theories/QScrProofs2.v
theories/Properties_QScr.v
theories/ScrModel.v
theories/ScrSpec.v
theories/ScrProofs.v
theories/ScrProofs2.v
theories/ScrProofs3.v
theories/Properties_Scr.v
theories/NntpModel.v
theories/NntpSpec.v
theories/NntpProofs.v
theories/Properties_Nntp.v
theories/BinModel.v
theories/BinSpec.v
theories/BinProofs.v
theories/BinProofs2.v
theories/BinProofs3.v
theories/BinProofs4.v
theories/Properties_Bin.v
theories/DmModel.v
theories/DmSpec.v
theories/DmProofs.v
theories/Properties_Dm.v
theories/DuModel.v
theories/DuSpec.v
theories/DuProofs.v
theories/DuProofs2.v
theories/DuProofs3.v
theories/DuTextModel.v
theories/DuTextSpec.v
theories/DuTextProofs.v
theories/Properties_Du.v
theories/RpModel.v
theories/RpSpec.v
theories/RpProofs.v
theories/RpProofs2.v
theories/Properties_Rp.v
theories/FfModel.v
theories/FfSpec.v
theories/FfProofs.v
theories/FfProofs2.v
theories/FfProofs3.v
theories/Properties_Ff.v
theories/ArgModel.v
theories/ArgSpec.v
theories/ArgSpec2.v
theories/ArgProofs.v
theories/ArgProofs2.v
theories/ArgProofs3.v
theories/ArgProofs4.v
theories/ArgProofs5.v
theories/Properties_Arg.v
theories/SvcModel.v
theories/SvcSpec.v
theories/SvcProofs.v
theories/Properties_Svc.v
