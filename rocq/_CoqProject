-Q theories Verif
theories/Base.v
theories/StreamSpec.v
theories/P_Stream.v
theories/M_StringStream.v
theories/P_StringStream.v
theories/M_Buffered.v
theories/BufferedSpec.v
theories/P_Buffered.v
theories/P_Buffered2.v
theories/M_Sub.v
theories/P_Sub.v
theories/P_DefaultSkip.v
theories/P_Sub2.v
theories/M_File.v
theories/P_File.v
theories/P_Streams3.v
theories/T_Streams.v
theories/M_Kmp.v
theories/KmpSpec.v
theories/P_Kmp.v
theories/T_Kmp.v
theories/B64Spec.v
theories/M_Base64.v
theories/P_Base64.v
theories/P_Base64b.v
theories/T_Base64.v
theories/M_Text.v
theories/TextSpec.v
theories/P_Text.v
theories/P_Text2.v
theories/T_Text.v
theories/M_DataEvent.v
theories/DataEventSpec.v
theories/P_DataEvent.v
theories/T_DataEvent.v
theories/SegSpec.v
theories/M_StringTerm.v
theories/P_StringTerm.v
theories/T_StringTerm.v
theories/ArchiveSpec.v
theories/M_Ar.v
theories/ArSpec.v
theories/P_Archive.v
theories/P_Ar.v
theories/T_Ar.v
theories/M_Cpio.v
theories/CpioSpec.v
theories/P_Cpio.v
theories/T_Cpio.v
theories/M_Tar.v
theories/TarSpec.v
theories/P_Tar.v
theories/T_Tar.v
theories/M_Inflate.v
theories/InflateSpec.v
theories/P_Inflate.v
theories/T_Inflate.v
theories/M_Deflate.v
theories/DeflateSpec.v
theories/P_Deflate.v
theories/T_Deflate.v
theories/M_Lzma.v
theories/LzmaSpec.v
theories/P_Lzma.v
theories/T_Lzma.v
theories/P_Entry.v
theories/M_Zip.v
theories/ZipSpec.v
theories/P_Zip.v
theories/T_Zip.v
theories/DetectSpec.v
theories/M_Detect.v
theories/P_Detect.v
theories/T_Detect.v
theories/CacheSpec.v
theories/M_Cache.v
theories/P_Cache.v
theories/T_Cache.v
theories/M_Listing.v
theories/ListingSpec.v
theories/P_Listing.v
theories/T_Listing.v
theories/M_DirLister.v
theories/DirListerSpec.v
theories/T_DirLister.v
theories/M_Skipping.v
theories/SkippingSpec.v
theories/P_Skipping.v
theories/T_Skipping.v
theories/M_Rpm.v
theories/RpmSpec.v
theories/P_Rpm.v
theories/P_MagicCodec.v
theories/P_LzCopy.v
theories/T_Rpm.v
theories/M_Process.v
theories/ProcessSpec.v
theories/P_Process.v
theories/T_Process.v
theories/M_Sdf.v
theories/SdfSpec.v
theories/P_Sdf.v
theories/T_Sdf.v
theories/M_Mail.v
theories/MailSpec.v
theories/P_Mail.v
theories/T_Mail.v
theories/OleSpec.v
theories/M_Ole.v
theories/P_BufInv.v
theories/P_Ole.v
theories/P_Ole2.v
theories/P_Ole3.v
theories/P_Ole4.v
theories/P_OleV.v
theories/P_OleV2.v
theories/P_OleV3.v
theories/T_Ole.v
theories/EncSpec.v
theories/M_Encoding.v
theories/P_Encoding.v
theories/T_Encoding.v
theories/P_Tame.v
theories/P_SafeAr.v
theories/P_TameBuf.v
theories/P_EntrySafe.v
theories/P_TameZ.v
theories/P_SafeTar.v
theories/P_SafeCpio.v
theories/P_SafeZip.v
theories/P_TameLz.v
theories/P_TameLayer.v
theories/P_SafeRpm.v
theories/P_SafeST.v
theories/P_SafeMail.v
theories/P_SafeSdf.v
theories/P_SafeOle.v
theories/T_Safe.v
theories/ReaderSpec.v
theories/M_Reader.v
theories/P_Reader1.v
theories/P_Reader2.v
theories/P_Reader3.v
theories/P_Reader4.v
theories/P_Reader5.v
theories/P_Reader7.v
theories/P_Reader6.v
theories/T_Reader.v
theories/M_MailList.v
theories/MailPartsSpec.v
theories/P_MailList1.v
theories/P_MailList2.v
theories/P_MailList3.v
theories/P_MailList4.v
theories/P_MailList5.v
theories/P_MailList6.v
theories/P_MailList7.v
theories/P_MailList8.v
theories/P_MailList9.v
theories/T_MailList.v
theories/M_Open.v
theories/OpenSpec.v
theories/P_Open.v
theories/T_Open.v
theories/OpenEndsSpec.v
theories/P_OpenSafe.v
theories/T_OpenSafe.v
theories/M_LzmaDec.v
theories/LzmaFormatSpec.v
theories/P_LzmaFormat.v
theories/P_LzmaFormat2.v
theories/P_LzmaDec1.v
theories/P_LzmaDec2.v
theories/P_LzmaDec3.v
theories/P_LzmaDec4.v
theories/P_LzmaDec5.v
theories/P_LzmaDec6.v
theories/P_LzmaDec7.v
theories/P_LzmaDec8.v
theories/P_LzmaDec9.v
theories/P_LzmaDec10.v
theories/P_LzmaDec11.v
theories/P_LzmaDec12.v
theories/P_LzmaDec13.v
theories/T_LzmaDec.v
theories/M_LzmaReal.v
theories/P_LzmaReal.v
theories/T_LzmaReal.v
theories/CompatSpec.v
theories/M_Compat.v
theories/T_Compat.v
theories/M_Opener.v
theories/T_Opener.v
theories/M_ListReal.v
theories/ListRealSpec.v
theories/P_ListReal1.v
theories/P_ListReal2.v
theories/P_ListReal3.v
theories/P_ListReal4.v
theories/T_ListReal.v
theories/P_ListSafe1.v
theories/P_ListSafe2.v
theories/P_ListSafe3.v
theories/T_ListSafe.v
theories/SizeSpec.v
theories/P_Sized.v
theories/T_Sized.v
theories/M_FileFail.v
theories/T_FileFail.v
theories/M_Base64Threads.v
theories/P_Base64Threads.v
theories/T_Base64Threads.v
theories/T_OpenSdf.v
theories/CpioCutSpec.v
theories/P_CpioCut.v
theories/T_CpioCut.v
theories/ArCutSpec.v
theories/P_ArCut.v
theories/T_ArCut.v
