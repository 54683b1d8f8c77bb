(** The Matroska schema as the library has it after MATROSKA_Init: libmatroska2/matroska_sem.c 531-985 (tables)
    and 987-1248 (contexts), generated from the source; libebml2/ebmlmain.c 28-55 (EBML header and global
    elements); libmatroska2/matroskamain.c 24-52 (the top level).

    A context is known by its place in [mk_list].  The derived classes of matroskamain.c 2452-2522 stand for
    the class they derive from: MATROSKA_BLOCK_CLASS, MATROSKA_BIGBINARY_CLASS and MATROSKA_SEGMENTUID_CLASS for
    EBML_BINARY_CLASS, the others for EBML_MASTER_CLASS; ValidateSizeSegUID (2232-2241) adds to the class of
    segment UIDs that data are 16 bytes long. *)
From Verif Require Import Base Ebml.

Definition cStream : Z := 0.
Definition cEbmlVoid : Z := 1.
Definition cEbmlCrc32 : Z := 2.
Definition cHead : Z := 3.
Definition cVersion : Z := 4.
Definition cReadVersion : Z := 5.
Definition cMaxIdLength : Z := 6.
Definition cMaxSizeLength : Z := 7.
Definition cDocType : Z := 8.
Definition cDocTypeVersion : Z := 9.
Definition cDocTypeReadVersion : Z := 10.
Definition cSeekID : Z := 11.
Definition cSeekPosition : Z := 12.
Definition cSeek : Z := 13.
Definition cSeekHead : Z := 14.
Definition cSegmentUUID : Z := 15.
Definition cSegmentFilename : Z := 16.
Definition cPrevUUID : Z := 17.
Definition cPrevFilename : Z := 18.
Definition cNextUUID : Z := 19.
Definition cNextFilename : Z := 20.
Definition cSegmentFamily : Z := 21.
Definition cChapterTranslateID : Z := 22.
Definition cChapterTranslateCodec : Z := 23.
Definition cChapterTranslateEditionUID : Z := 24.
Definition cChapterTranslate : Z := 25.
Definition cTimestampScale : Z := 26.
Definition cDuration : Z := 27.
Definition cDateUTC : Z := 28.
Definition cTitle : Z := 29.
Definition cMuxingApp : Z := 30.
Definition cWritingApp : Z := 31.
Definition cInfo : Z := 32.
Definition cTimestamp : Z := 33.
Definition cSilentTrackNumber : Z := 34.
Definition cSilentTracks : Z := 35.
Definition cPosition : Z := 36.
Definition cPrevSize : Z := 37.
Definition cSimpleBlock : Z := 38.
Definition cBlock : Z := 39.
Definition cBlockVirtual : Z := 40.
Definition cBlockAdditional : Z := 41.
Definition cBlockAddID : Z := 42.
Definition cBlockMore : Z := 43.
Definition cBlockAdditions : Z := 44.
Definition cBlockDuration : Z := 45.
Definition cReferencePriority : Z := 46.
Definition cReferenceBlock : Z := 47.
Definition cReferenceVirtual : Z := 48.
Definition cCodecState : Z := 49.
Definition cDiscardPadding : Z := 50.
Definition cLaceNumber : Z := 51.
Definition cFrameNumber : Z := 52.
Definition cBlockAdditionID : Z := 53.
Definition cDelay : Z := 54.
Definition cSliceDuration : Z := 55.
Definition cTimeSlice : Z := 56.
Definition cSlices : Z := 57.
Definition cReferenceOffset : Z := 58.
Definition cReferenceTimestamp : Z := 59.
Definition cReferenceFrame : Z := 60.
Definition cBlockGroup : Z := 61.
Definition cEncryptedBlock : Z := 62.
Definition cCluster : Z := 63.
Definition cTrackNumber : Z := 64.
Definition cTrackUID : Z := 65.
Definition cTrackType : Z := 66.
Definition cFlagEnabled : Z := 67.
Definition cFlagDefault : Z := 68.
Definition cFlagForced : Z := 69.
Definition cFlagHearingImpaired : Z := 70.
Definition cFlagVisualImpaired : Z := 71.
Definition cFlagTextDescriptions : Z := 72.
Definition cFlagOriginal : Z := 73.
Definition cFlagCommentary : Z := 74.
Definition cFlagLacing : Z := 75.
Definition cMinCache : Z := 76.
Definition cMaxCache : Z := 77.
Definition cDefaultDuration : Z := 78.
Definition cDefaultDecodedFieldDuration : Z := 79.
Definition cTrackTimestampScale : Z := 80.
Definition cTrackOffset : Z := 81.
Definition cMaxBlockAdditionID : Z := 82.
Definition cBlockAddIDValue : Z := 83.
Definition cBlockAddIDName : Z := 84.
Definition cBlockAddIDType : Z := 85.
Definition cBlockAddIDExtraData : Z := 86.
Definition cBlockAdditionMapping : Z := 87.
Definition cName : Z := 88.
Definition cLanguage : Z := 89.
Definition cLanguageBCP47 : Z := 90.
Definition cCodecID : Z := 91.
Definition cCodecPrivate : Z := 92.
Definition cCodecName : Z := 93.
Definition cAttachmentLink : Z := 94.
Definition cCodecSettings : Z := 95.
Definition cCodecInfoURL : Z := 96.
Definition cCodecDownloadURL : Z := 97.
Definition cCodecDecodeAll : Z := 98.
Definition cTrackOverlay : Z := 99.
Definition cCodecDelay : Z := 100.
Definition cSeekPreRoll : Z := 101.
Definition cTrackTranslateTrackID : Z := 102.
Definition cTrackTranslateCodec : Z := 103.
Definition cTrackTranslateEditionUID : Z := 104.
Definition cTrackTranslate : Z := 105.
Definition cFlagInterlaced : Z := 106.
Definition cFieldOrder : Z := 107.
Definition cStereoMode : Z := 108.
Definition cAlphaMode : Z := 109.
Definition cOldStereoMode : Z := 110.
Definition cPixelWidth : Z := 111.
Definition cPixelHeight : Z := 112.
Definition cPixelCropBottom : Z := 113.
Definition cPixelCropTop : Z := 114.
Definition cPixelCropLeft : Z := 115.
Definition cPixelCropRight : Z := 116.
Definition cDisplayWidth : Z := 117.
Definition cDisplayHeight : Z := 118.
Definition cDisplayUnit : Z := 119.
Definition cAspectRatioType : Z := 120.
Definition cUncompressedFourCC : Z := 121.
Definition cGammaValue : Z := 122.
Definition cFrameRate : Z := 123.
Definition cMatrixCoefficients : Z := 124.
Definition cBitsPerChannel : Z := 125.
Definition cChromaSubsamplingHorz : Z := 126.
Definition cChromaSubsamplingVert : Z := 127.
Definition cCbSubsamplingHorz : Z := 128.
Definition cCbSubsamplingVert : Z := 129.
Definition cChromaSitingHorz : Z := 130.
Definition cChromaSitingVert : Z := 131.
Definition cRange : Z := 132.
Definition cTransferCharacteristics : Z := 133.
Definition cPrimaries : Z := 134.
Definition cMaxCLL : Z := 135.
Definition cMaxFALL : Z := 136.
Definition cPrimaryRChromaticityX : Z := 137.
Definition cPrimaryRChromaticityY : Z := 138.
Definition cPrimaryGChromaticityX : Z := 139.
Definition cPrimaryGChromaticityY : Z := 140.
Definition cPrimaryBChromaticityX : Z := 141.
Definition cPrimaryBChromaticityY : Z := 142.
Definition cWhitePointChromaticityX : Z := 143.
Definition cWhitePointChromaticityY : Z := 144.
Definition cLuminanceMax : Z := 145.
Definition cLuminanceMin : Z := 146.
Definition cMasteringMetadata : Z := 147.
Definition cColour : Z := 148.
Definition cProjectionType : Z := 149.
Definition cProjectionPrivate : Z := 150.
Definition cProjectionPoseYaw : Z := 151.
Definition cProjectionPosePitch : Z := 152.
Definition cProjectionPoseRoll : Z := 153.
Definition cProjection : Z := 154.
Definition cVideo : Z := 155.
Definition cSamplingFrequency : Z := 156.
Definition cOutputSamplingFrequency : Z := 157.
Definition cChannels : Z := 158.
Definition cChannelPositions : Z := 159.
Definition cBitDepth : Z := 160.
Definition cEmphasis : Z := 161.
Definition cAudio : Z := 162.
Definition cTrackPlaneUID : Z := 163.
Definition cTrackPlaneType : Z := 164.
Definition cTrackPlane : Z := 165.
Definition cTrackCombinePlanes : Z := 166.
Definition cTrackJoinUID : Z := 167.
Definition cTrackJoinBlocks : Z := 168.
Definition cTrackOperation : Z := 169.
Definition cTrickTrackUID : Z := 170.
Definition cTrickTrackSegmentUID : Z := 171.
Definition cTrickTrackFlag : Z := 172.
Definition cTrickMasterTrackUID : Z := 173.
Definition cTrickMasterTrackSegmentUID : Z := 174.
Definition cContentEncodingOrder : Z := 175.
Definition cContentEncodingScope : Z := 176.
Definition cContentEncodingType : Z := 177.
Definition cContentCompAlgo : Z := 178.
Definition cContentCompSettings : Z := 179.
Definition cContentCompression : Z := 180.
Definition cContentEncAlgo : Z := 181.
Definition cContentEncKeyID : Z := 182.
Definition cAESSettingsCipherMode : Z := 183.
Definition cContentEncAESSettings : Z := 184.
Definition cContentSignature : Z := 185.
Definition cContentSigKeyID : Z := 186.
Definition cContentSigAlgo : Z := 187.
Definition cContentSigHashAlgo : Z := 188.
Definition cContentEncryption : Z := 189.
Definition cContentEncoding : Z := 190.
Definition cContentEncodings : Z := 191.
Definition cTrackEntry : Z := 192.
Definition cTracks : Z := 193.
Definition cCueTime : Z := 194.
Definition cCueTrack : Z := 195.
Definition cCueClusterPosition : Z := 196.
Definition cCueRelativePosition : Z := 197.
Definition cCueDuration : Z := 198.
Definition cCueBlockNumber : Z := 199.
Definition cCueCodecState : Z := 200.
Definition cCueRefTime : Z := 201.
Definition cCueRefCluster : Z := 202.
Definition cCueRefNumber : Z := 203.
Definition cCueRefCodecState : Z := 204.
Definition cCueReference : Z := 205.
Definition cCueTrackPositions : Z := 206.
Definition cCuePoint : Z := 207.
Definition cCues : Z := 208.
Definition cFileDescription : Z := 209.
Definition cFileName : Z := 210.
Definition cFileMediaType : Z := 211.
Definition cFileData : Z := 212.
Definition cFileUID : Z := 213.
Definition cFileReferral : Z := 214.
Definition cFileUsedStartTime : Z := 215.
Definition cFileUsedEndTime : Z := 216.
Definition cAttachedFile : Z := 217.
Definition cAttachments : Z := 218.
Definition cEditionUID : Z := 219.
Definition cEditionFlagHidden : Z := 220.
Definition cEditionFlagDefault : Z := 221.
Definition cEditionFlagOrdered : Z := 222.
Definition cEditionString : Z := 223.
Definition cEditionLanguageIETF : Z := 224.
Definition cEditionDisplay : Z := 225.
Definition cChapterUID : Z := 226.
Definition cChapterStringUID : Z := 227.
Definition cChapterTimeStart : Z := 228.
Definition cChapterTimeEnd : Z := 229.
Definition cChapterFlagHidden : Z := 230.
Definition cChapterFlagEnabled : Z := 231.
Definition cChapterSegmentUUID : Z := 232.
Definition cChapterSkipType : Z := 233.
Definition cChapterSegmentEditionUID : Z := 234.
Definition cChapterPhysicalEquiv : Z := 235.
Definition cChapterTrackNumber : Z := 236.
Definition cChapterTrack : Z := 237.
Definition cChapString : Z := 238.
Definition cChapLanguage : Z := 239.
Definition cChapLanguageBCP47 : Z := 240.
Definition cChapCountry : Z := 241.
Definition cChapterDisplay : Z := 242.
Definition cChapProcessCodecID : Z := 243.
Definition cChapProcessPrivate : Z := 244.
Definition cChapProcessTime : Z := 245.
Definition cChapProcessData : Z := 246.
Definition cChapProcessCommand : Z := 247.
Definition cChapProcess : Z := 248.
Definition cChapterAtom : Z := 249.
Definition cEditionEntry : Z := 250.
Definition cChapters : Z := 251.
Definition cTargetTypeValue : Z := 252.
Definition cTargetType : Z := 253.
Definition cTagTrackUID : Z := 254.
Definition cTagEditionUID : Z := 255.
Definition cTagChapterUID : Z := 256.
Definition cTagAttachmentUID : Z := 257.
Definition cTargets : Z := 258.
Definition cTagName : Z := 259.
Definition cTagLanguage : Z := 260.
Definition cTagLanguageBCP47 : Z := 261.
Definition cTagDefault : Z := 262.
Definition cTagDefaultBogus : Z := 263.
Definition cTagString : Z := 264.
Definition cTagBinary : Z := 265.
Definition cSimpleTag : Z := 266.
Definition cTag : Z := 267.
Definition cTags : Z := 268.
Definition cSegment : Z := 269.

(** EBML_SemanticGlobals, ebmlmain.c 31-35. *)
Definition sGlobals : list sem := [mkSem false false cEbmlVoid 0; mkSem false true cEbmlCrc32 0].
(** EBML_SemanticHead, ebmlmain.c 45-54. *)
Definition sHead : list sem :=
  [mkSem true true cVersion 0; mkSem true true cReadVersion 0; mkSem true true cMaxIdLength 0; mkSem true true cMaxSizeLength 0;
   mkSem true true cDocType 0; mkSem true true cDocTypeVersion 0; mkSem true true cDocTypeReadVersion 0].
(** EBML_SemanticMatroska, matroskamain.c 49-51. *)
Definition sMatroska : list sem := [mkSem true false cHead 0; mkSem true false cSegment 0].
(** matroska_sem.c 531-535. *)
Definition sSeek : list sem :=
  [mkSem true true cSeekID 0;
   mkSem true true cSeekPosition 0].
(** matroska_sem.c 537-540. *)
Definition sSeekHead : list sem :=
  [mkSem true false cSeek 0].
(** matroska_sem.c 542-547. *)
Definition sChapterTranslate : list sem :=
  [mkSem true true cChapterTranslateID 8;
   mkSem true true cChapterTranslateCodec 8;
   mkSem false false cChapterTranslateEditionUID 8].
(** matroska_sem.c 549-565. *)
Definition sInfo : list sem :=
  [mkSem false true cSegmentUUID 8;
   mkSem false true cSegmentFilename 8;
   mkSem false true cPrevUUID 8;
   mkSem false true cPrevFilename 8;
   mkSem false true cNextUUID 8;
   mkSem false true cNextFilename 8;
   mkSem false false cSegmentFamily 8;
   mkSem false false cChapterTranslate 8;
   mkSem true true cTimestampScale 0;
   mkSem false true cDuration 0;
   mkSem false true cDateUTC 0;
   mkSem false true cTitle 0;
   mkSem true true cMuxingApp 0;
   mkSem true true cWritingApp 0].
(** matroska_sem.c 567-570. *)
Definition sSilentTracks : list sem :=
  [mkSem false false cSilentTrackNumber 127].
(** matroska_sem.c 572-576. *)
Definition sBlockMore : list sem :=
  [mkSem true true cBlockAdditional 0;
   mkSem true true cBlockAddID 0].
(** matroska_sem.c 578-581. *)
Definition sBlockAdditions : list sem :=
  [mkSem true false cBlockMore 0].
(** matroska_sem.c 583-590. *)
Definition sTimeSlice : list sem :=
  [mkSem false true cLaceNumber 127;
   mkSem false true cFrameNumber 127;
   mkSem false true cBlockAdditionID 127;
   mkSem false true cDelay 127;
   mkSem false true cSliceDuration 127].
(** matroska_sem.c 592-595. *)
Definition sSlices : list sem :=
  [mkSem false false cTimeSlice 127].
(** matroska_sem.c 597-601. *)
Definition sReferenceFrame : list sem :=
  [mkSem true true cReferenceOffset 111;
   mkSem true true cReferenceTimestamp 111].
(** matroska_sem.c 603-616. *)
Definition sBlockGroup : list sem :=
  [mkSem true true cBlock 0;
   mkSem false true cBlockVirtual 127;
   mkSem false true cBlockAdditions 0;
   mkSem false true cBlockDuration 0;
   mkSem true true cReferencePriority 8;
   mkSem false false cReferenceBlock 0;
   mkSem false true cReferenceVirtual 127;
   mkSem false true cCodecState 25;
   mkSem false true cDiscardPadding 23;
   mkSem false true cSlices 127;
   mkSem false true cReferenceFrame 111].
(** matroska_sem.c 618-627. *)
Definition sCluster : list sem :=
  [mkSem true true cTimestamp 0;
   mkSem false true cSilentTracks 127;
   mkSem false true cPosition 72;
   mkSem false true cPrevSize 0;
   mkSem false false cSimpleBlock 1;
   mkSem false false cBlockGroup 0;
   mkSem false false cEncryptedBlock 127].
(** matroska_sem.c 629-635. *)
Definition sBlockAdditionMapping : list sem :=
  [mkSem false true cBlockAddIDValue 31;
   mkSem false true cBlockAddIDName 31;
   mkSem true true cBlockAddIDType 31;
   mkSem false true cBlockAddIDExtraData 31].
(** matroska_sem.c 637-642. *)
Definition sTrackTranslate : list sem :=
  [mkSem true true cTrackTranslateTrackID 8;
   mkSem true true cTrackTranslateCodec 8;
   mkSem false false cTrackTranslateEditionUID 8].
(** matroska_sem.c 644-656. *)
Definition sMasteringMetadata : list sem :=
  [mkSem false true cPrimaryRChromaticityX 23;
   mkSem false true cPrimaryRChromaticityY 23;
   mkSem false true cPrimaryGChromaticityX 23;
   mkSem false true cPrimaryGChromaticityY 23;
   mkSem false true cPrimaryBChromaticityX 23;
   mkSem false true cPrimaryBChromaticityY 23;
   mkSem false true cWhitePointChromaticityX 23;
   mkSem false true cWhitePointChromaticityY 23;
   mkSem false true cLuminanceMax 23;
   mkSem false true cLuminanceMin 23].
(** matroska_sem.c 658-674. *)
Definition sColour : list sem :=
  [mkSem true true cMatrixCoefficients 23;
   mkSem true true cBitsPerChannel 23;
   mkSem false true cChromaSubsamplingHorz 23;
   mkSem false true cChromaSubsamplingVert 23;
   mkSem false true cCbSubsamplingHorz 23;
   mkSem false true cCbSubsamplingVert 23;
   mkSem true true cChromaSitingHorz 23;
   mkSem true true cChromaSitingVert 23;
   mkSem true true cRange 23;
   mkSem true true cTransferCharacteristics 23;
   mkSem true true cPrimaries 23;
   mkSem false true cMaxCLL 23;
   mkSem false true cMaxFALL 23;
   mkSem false true cMasteringMetadata 23].
(** matroska_sem.c 676-683. *)
Definition sProjection : list sem :=
  [mkSem true true cProjectionType 23;
   mkSem false true cProjectionPrivate 23;
   mkSem true true cProjectionPoseYaw 23;
   mkSem true true cProjectionPosePitch 23;
   mkSem true true cProjectionPoseRoll 23].
(** matroska_sem.c 685-707. *)
Definition sVideo : list sem :=
  [mkSem true true cFlagInterlaced 17;
   mkSem true true cFieldOrder 31;
   mkSem true true cStereoMode 19;
   mkSem true true cAlphaMode 19;
   mkSem false true cOldStereoMode 108;
   mkSem true true cPixelWidth 0;
   mkSem true true cPixelHeight 0;
   mkSem true true cPixelCropBottom 0;
   mkSem true true cPixelCropTop 0;
   mkSem true true cPixelCropLeft 0;
   mkSem true true cPixelCropRight 0;
   mkSem false true cDisplayWidth 0;
   mkSem false true cDisplayHeight 0;
   mkSem true true cDisplayUnit 0;
   mkSem false true cAspectRatioType 127;
   mkSem false true cUncompressedFourCC 8;
   mkSem false true cGammaValue 127;
   mkSem false true cFrameRate 127;
   mkSem false true cColour 23;
   mkSem false true cProjection 23].
(** matroska_sem.c 709-717. *)
Definition sAudio : list sem :=
  [mkSem true true cSamplingFrequency 0;
   mkSem false true cOutputSamplingFrequency 0;
   mkSem true true cChannels 0;
   mkSem false true cChannelPositions 127;
   mkSem false true cBitDepth 0;
   mkSem true true cEmphasis 63].
(** matroska_sem.c 719-723. *)
Definition sTrackPlane : list sem :=
  [mkSem true true cTrackPlaneUID 27;
   mkSem true true cTrackPlaneType 27].
(** matroska_sem.c 725-728. *)
Definition sTrackCombinePlanes : list sem :=
  [mkSem true false cTrackPlane 27].
(** matroska_sem.c 730-733. *)
Definition sTrackJoinBlocks : list sem :=
  [mkSem true false cTrackJoinUID 27].
(** matroska_sem.c 735-739. *)
Definition sTrackOperation : list sem :=
  [mkSem false true cTrackCombinePlanes 27;
   mkSem false true cTrackJoinBlocks 27].
(** matroska_sem.c 741-745. *)
Definition sContentCompression : list sem :=
  [mkSem true true cContentCompAlgo 8;
   mkSem false true cContentCompSettings 8].
(** matroska_sem.c 747-750. *)
Definition sContentEncAESSettings : list sem :=
  [mkSem true true cAESSettingsCipherMode 23].
(** matroska_sem.c 752-761. *)
Definition sContentEncryption : list sem :=
  [mkSem true true cContentEncAlgo 0;
   mkSem false true cContentEncKeyID 0;
   mkSem false true cContentEncAESSettings 23;
   mkSem false true cContentSignature 127;
   mkSem false true cContentSigKeyID 127;
   mkSem false true cContentSigAlgo 127;
   mkSem false true cContentSigHashAlgo 127].
(** matroska_sem.c 763-770. *)
Definition sContentEncoding : list sem :=
  [mkSem true true cContentEncodingOrder 0;
   mkSem true true cContentEncodingScope 0;
   mkSem true true cContentEncodingType 0;
   mkSem false true cContentCompression 8;
   mkSem false true cContentEncryption 0].
(** matroska_sem.c 772-775. *)
Definition sContentEncodings : list sem :=
  [mkSem true false cContentEncoding 0].
(** matroska_sem.c 777-823. *)
Definition sTrackEntry : list sem :=
  [mkSem true true cTrackNumber 0;
   mkSem true true cTrackUID 0;
   mkSem true true cTrackType 0;
   mkSem true true cFlagEnabled 17;
   mkSem true true cFlagDefault 0;
   mkSem true true cFlagForced 0;
   mkSem false true cFlagHearingImpaired 31;
   mkSem false true cFlagVisualImpaired 31;
   mkSem false true cFlagTextDescriptions 31;
   mkSem false true cFlagOriginal 31;
   mkSem false true cFlagCommentary 31;
   mkSem true true cFlagLacing 0;
   mkSem true true cMinCache 127;
   mkSem false true cMaxCache 127;
   mkSem false true cDefaultDuration 0;
   mkSem false true cDefaultDecodedFieldDuration 31;
   mkSem true true cTrackTimestampScale 104;
   mkSem false true cTrackOffset 127;
   mkSem true true cMaxBlockAdditionID 8;
   mkSem false false cBlockAdditionMapping 31;
   mkSem false true cName 0;
   mkSem true true cLanguage 0;
   mkSem false true cLanguageBCP47 31;
   mkSem true true cCodecID 0;
   mkSem false true cCodecPrivate 0;
   mkSem false true cCodecName 0;
   mkSem false true cAttachmentLink 104;
   mkSem false true cCodecSettings 127;
   mkSem false false cCodecInfoURL 127;
   mkSem false false cCodecDownloadURL 127;
   mkSem true true cCodecDecodeAll 127;
   mkSem false false cTrackOverlay 127;
   mkSem true true cCodecDelay 23;
   mkSem true true cSeekPreRoll 23;
   mkSem false false cTrackTranslate 8;
   mkSem false true cVideo 0;
   mkSem false true cAudio 0;
   mkSem false true cTrackOperation 27;
   mkSem false true cTrickTrackUID 111;
   mkSem false true cTrickTrackSegmentUID 111;
   mkSem false true cTrickTrackFlag 111;
   mkSem false true cTrickMasterTrackUID 111;
   mkSem false true cTrickMasterTrackSegmentUID 111;
   mkSem false true cContentEncodings 0].
(** matroska_sem.c 825-828. *)
Definition sTracks : list sem :=
  [mkSem true false cTrackEntry 0].
(** matroska_sem.c 830-836. *)
Definition sCueReference : list sem :=
  [mkSem true true cCueRefTime 25;
   mkSem true true cCueRefCluster 127;
   mkSem false true cCueRefNumber 127;
   mkSem false true cCueRefCodecState 127].
(** matroska_sem.c 838-847. *)
Definition sCueTrackPositions : list sem :=
  [mkSem true true cCueTrack 0;
   mkSem true true cCueClusterPosition 0;
   mkSem false true cCueRelativePosition 23;
   mkSem false true cCueDuration 23;
   mkSem false true cCueBlockNumber 0;
   mkSem true true cCueCodecState 25;
   mkSem false false cCueReference 25].
(** matroska_sem.c 849-853. *)
Definition sCuePoint : list sem :=
  [mkSem true true cCueTime 0;
   mkSem true false cCueTrackPositions 0].
(** matroska_sem.c 855-858. *)
Definition sCues : list sem :=
  [mkSem true false cCuePoint 0].
(** matroska_sem.c 860-870. *)
Definition sAttachedFile : list sem :=
  [mkSem false true cFileDescription 8;
   mkSem true true cFileName 8;
   mkSem true true cFileMediaType 8;
   mkSem true true cFileData 8;
   mkSem true true cFileUID 8;
   mkSem false true cFileReferral 127;
   mkSem false true cFileUsedStartTime 111;
   mkSem false true cFileUsedEndTime 111].
(** matroska_sem.c 872-875. *)
Definition sAttachments : list sem :=
  [mkSem true false cAttachedFile 8].
(** matroska_sem.c 877-881. *)
Definition sEditionDisplay : list sem :=
  [mkSem true true cEditionString 63;
   mkSem false false cEditionLanguageIETF 63].
(** matroska_sem.c 883-886. *)
Definition sChapterTrack : list sem :=
  [mkSem true false cChapterTrackNumber 8].
(** matroska_sem.c 888-894. *)
Definition sChapterDisplay : list sem :=
  [mkSem true true cChapString 0;
   mkSem true false cChapLanguage 0;
   mkSem false false cChapLanguageBCP47 31;
   mkSem false false cChapCountry 0].
(** matroska_sem.c 896-900. *)
Definition sChapProcessCommand : list sem :=
  [mkSem true true cChapProcessTime 8;
   mkSem true true cChapProcessData 8].
(** matroska_sem.c 902-907. *)
Definition sChapProcess : list sem :=
  [mkSem true true cChapProcessCodecID 8;
   mkSem false true cChapProcessPrivate 8;
   mkSem false false cChapProcessCommand 8].
(** matroska_sem.c 909-925. *)
Definition sChapterAtom : list sem :=
  [mkSem false false cChapterAtom 0;
   mkSem true true cChapterUID 0;
   mkSem false true cChapterStringUID 19;
   mkSem true true cChapterTimeStart 0;
   mkSem false true cChapterTimeEnd 0;
   mkSem true true cChapterFlagHidden 8;
   mkSem true true cChapterFlagEnabled 8;
   mkSem false true cChapterSegmentUUID 8;
   mkSem false true cChapterSkipType 63;
   mkSem false true cChapterSegmentEditionUID 8;
   mkSem false true cChapterPhysicalEquiv 8;
   mkSem false true cChapterTrack 8;
   mkSem false false cChapterDisplay 0;
   mkSem false false cChapProcess 8].
(** matroska_sem.c 927-935. *)
Definition sEditionEntry : list sem :=
  [mkSem false true cEditionUID 8;
   mkSem true true cEditionFlagHidden 8;
   mkSem true true cEditionFlagDefault 8;
   mkSem true true cEditionFlagOrdered 8;
   mkSem false false cEditionDisplay 63;
   mkSem true false cChapterAtom 0].
(** matroska_sem.c 937-940. *)
Definition sChapters : list sem :=
  [mkSem true false cEditionEntry 0].
(** matroska_sem.c 942-950. *)
Definition sTargets : list sem :=
  [mkSem true true cTargetTypeValue 0;
   mkSem false true cTargetType 0;
   mkSem false false cTagTrackUID 0;
   mkSem false false cTagEditionUID 8;
   mkSem false false cTagChapterUID 8;
   mkSem false false cTagAttachmentUID 8].
(** matroska_sem.c 952-962. *)
Definition sSimpleTag : list sem :=
  [mkSem false false cSimpleTag 0;
   mkSem true true cTagName 0;
   mkSem true true cTagLanguage 0;
   mkSem false true cTagLanguageBCP47 31;
   mkSem true true cTagDefault 0;
   mkSem true true cTagDefaultBogus 127;
   mkSem false true cTagString 0;
   mkSem false true cTagBinary 0].
(** matroska_sem.c 964-968. *)
Definition sTag : list sem :=
  [mkSem true true cTargets 0;
   mkSem true false cSimpleTag 0].
(** matroska_sem.c 970-973. *)
Definition sTags : list sem :=
  [mkSem true false cTag 0].
(** matroska_sem.c 975-985. *)
Definition sSegment : list sem :=
  [mkSem false false cSeekHead 0;
   mkSem true false cInfo 0;
   mkSem false false cCluster 0;
   mkSem false false cTracks 0;
   mkSem false true cCues 0;
   mkSem false true cAttachments 8;
   mkSem false false cChapters 0;
   mkSem false false cTags 0].

(** The contexts: FOURCC('M','K','X','_') of matroskamain.c 52 (little-endian), ebmlmain.c 28-29, 55, 37-43 (EBML_MAX_VERSION 1,
    EBML_MAX_ID 4, EBML_MAX_SIZE 8), then matroska_sem.c 989-1247 with the line of each. *)
(** EBML_MAX_VERSION, EBML_MAX_ID, EBML_MAX_SIZE: libebml2/ebml2/ebml.h 22-24. *)
Definition EBML_MAX_VERSION : Z := 1.
Definition EBML_MAX_ID : Z := 4.
Definition EBML_MAX_SIZE : Z := 8.
Definition mk_list : list ctx :=
  [mkCtx 1599621965 KMaster None (Some sMatroska) sGlobals;
   mkCtx 236 KVoid None None [];
   mkCtx 191 KCrc None None [];
   mkCtx 440786851 KMaster None (Some sHead) sGlobals;
   mkCtx 17030 KUInt (Some (DInt EBML_MAX_VERSION)) None sGlobals;
   mkCtx 17143 KUInt (Some (DInt EBML_MAX_VERSION)) None sGlobals;
   mkCtx 17138 KUInt (Some (DInt EBML_MAX_ID)) None sGlobals;
   mkCtx 17139 KUInt (Some (DInt EBML_MAX_SIZE)) None sGlobals;
   mkCtx 17026 KString (Some (DStr [109; 97; 116; 114; 111; 115; 107; 97])) None sGlobals;
   mkCtx 17031 KUInt (Some (DInt 1)) None sGlobals;
   mkCtx 17029 KUInt (Some (DInt 1)) None sGlobals;
   (* 989 SeekID *) mkCtx 21419 KBinary None None sGlobals;
   (* 990 SeekPosition *) mkCtx 21420 KUInt None None sGlobals;
   (* 991 Seek *) mkCtx 19899 KMaster None (Some sSeek) sGlobals;
   (* 992 SeekHead *) mkCtx 290298740 KMaster None (Some sSeekHead) sGlobals;
   (* 993 SegmentUUID *) mkCtx 29604 KBinary None None sGlobals;
   (* 994 SegmentFilename *) mkCtx 29572 KUni None None sGlobals;
   (* 995 PrevUUID *) mkCtx 3979555 KBinary None None sGlobals;
   (* 996 PrevFilename *) mkCtx 3965867 KUni None None sGlobals;
   (* 997 NextUUID *) mkCtx 4110627 KBinary None None sGlobals;
   (* 998 NextFilename *) mkCtx 4096955 KUni None None sGlobals;
   (* 999 SegmentFamily *) mkCtx 17476 KBinary None None sGlobals;
   (* 1000 ChapterTranslateID *) mkCtx 27045 KBinary None None sGlobals;
   (* 1001 ChapterTranslateCodec *) mkCtx 27071 KUInt None None sGlobals;
   (* 1002 ChapterTranslateEditionUID *) mkCtx 27132 KUInt None None sGlobals;
   (* 1003 ChapterTranslate *) mkCtx 26916 KMaster None (Some sChapterTranslate) sGlobals;
   (* 1004 TimestampScale *) mkCtx 2807729 KUInt (Some (DInt 1000000)) None sGlobals;
   (* 1005 Duration *) mkCtx 17545 KFloat None None sGlobals;
   (* 1006 DateUTC *) mkCtx 17505 KDate None None sGlobals;
   (* 1007 Title *) mkCtx 31657 KUni None None sGlobals;
   (* 1008 MuxingApp *) mkCtx 19840 KUni None None sGlobals;
   (* 1009 WritingApp *) mkCtx 22337 KUni None None sGlobals;
   (* 1010 Info *) mkCtx 357149030 KMaster None (Some sInfo) sGlobals;
   (* 1011 Timestamp *) mkCtx 231 KUInt None None sGlobals;
   (* 1012 SilentTrackNumber *) mkCtx 22743 KUInt None None sGlobals;
   (* 1013 SilentTracks *) mkCtx 22612 KMaster None (Some sSilentTracks) sGlobals;
   (* 1014 Position *) mkCtx 167 KUInt None None sGlobals;
   (* 1015 PrevSize *) mkCtx 171 KUInt None None sGlobals;
   (* 1016 SimpleBlock *) mkCtx 163 KBinary None None sGlobals;
   (* 1017 Block *) mkCtx 161 KBinary None None sGlobals;
   (* 1018 BlockVirtual *) mkCtx 162 KBinary None None sGlobals;
   (* 1019 BlockAdditional *) mkCtx 165 KBinary None None sGlobals;
   (* 1020 BlockAddID *) mkCtx 238 KUInt (Some (DInt 1)) None sGlobals;
   (* 1021 BlockMore *) mkCtx 166 KMaster None (Some sBlockMore) sGlobals;
   (* 1022 BlockAdditions *) mkCtx 30113 KMaster None (Some sBlockAdditions) sGlobals;
   (* 1023 BlockDuration *) mkCtx 155 KUInt None None sGlobals;
   (* 1024 ReferencePriority *) mkCtx 250 KUInt (Some (DInt 0)) None sGlobals;
   (* 1025 ReferenceBlock *) mkCtx 251 KSInt None None sGlobals;
   (* 1026 ReferenceVirtual *) mkCtx 253 KSInt None None sGlobals;
   (* 1027 CodecState *) mkCtx 164 KBinary None None sGlobals;
   (* 1028 DiscardPadding *) mkCtx 30114 KSInt None None sGlobals;
   (* 1029 LaceNumber *) mkCtx 204 KUInt None None sGlobals;
   (* 1030 FrameNumber *) mkCtx 205 KUInt (Some (DInt 0)) None sGlobals;
   (* 1031 BlockAdditionID *) mkCtx 203 KUInt (Some (DInt 0)) None sGlobals;
   (* 1032 Delay *) mkCtx 206 KUInt (Some (DInt 0)) None sGlobals;
   (* 1033 SliceDuration *) mkCtx 207 KUInt (Some (DInt 0)) None sGlobals;
   (* 1034 TimeSlice *) mkCtx 232 KMaster None (Some sTimeSlice) sGlobals;
   (* 1035 Slices *) mkCtx 142 KMaster None (Some sSlices) sGlobals;
   (* 1036 ReferenceOffset *) mkCtx 201 KUInt None None sGlobals;
   (* 1037 ReferenceTimestamp *) mkCtx 202 KUInt None None sGlobals;
   (* 1038 ReferenceFrame *) mkCtx 200 KMaster None (Some sReferenceFrame) sGlobals;
   (* 1039 BlockGroup *) mkCtx 160 KMaster None (Some sBlockGroup) sGlobals;
   (* 1040 EncryptedBlock *) mkCtx 175 KBinary None None sGlobals;
   (* 1041 Cluster *) mkCtx 524531317 KMaster None (Some sCluster) sGlobals;
   (* 1042 TrackNumber *) mkCtx 215 KUInt None None sGlobals;
   (* 1043 TrackUID *) mkCtx 29637 KUInt None None sGlobals;
   (* 1044 TrackType *) mkCtx 131 KUInt None None sGlobals;
   (* 1045 FlagEnabled *) mkCtx 185 KUInt (Some (DInt 1)) None sGlobals;
   (* 1046 FlagDefault *) mkCtx 136 KUInt (Some (DInt 1)) None sGlobals;
   (* 1047 FlagForced *) mkCtx 21930 KUInt (Some (DInt 0)) None sGlobals;
   (* 1048 FlagHearingImpaired *) mkCtx 21931 KUInt None None sGlobals;
   (* 1049 FlagVisualImpaired *) mkCtx 21932 KUInt None None sGlobals;
   (* 1050 FlagTextDescriptions *) mkCtx 21933 KUInt None None sGlobals;
   (* 1051 FlagOriginal *) mkCtx 21934 KUInt None None sGlobals;
   (* 1052 FlagCommentary *) mkCtx 21935 KUInt None None sGlobals;
   (* 1053 FlagLacing *) mkCtx 156 KUInt (Some (DInt 1)) None sGlobals;
   (* 1054 MinCache *) mkCtx 28135 KUInt (Some (DInt 0)) None sGlobals;
   (* 1055 MaxCache *) mkCtx 28152 KUInt None None sGlobals;
   (* 1056 DefaultDuration *) mkCtx 2352003 KUInt None None sGlobals;
   (* 1057 DefaultDecodedFieldDuration *) mkCtx 2313850 KUInt None None sGlobals;
   (* 1058 TrackTimestampScale *) mkCtx 2306383 KFloat (Some (DInt 1)) None sGlobals;
   (* 1059 TrackOffset *) mkCtx 21375 KSInt (Some (DInt 0)) None sGlobals;
   (* 1060 MaxBlockAdditionID *) mkCtx 21998 KUInt (Some (DInt 0)) None sGlobals;
   (* 1061 BlockAddIDValue *) mkCtx 16880 KUInt None None sGlobals;
   (* 1062 BlockAddIDName *) mkCtx 16804 KString None None sGlobals;
   (* 1063 BlockAddIDType *) mkCtx 16871 KUInt (Some (DInt 0)) None sGlobals;
   (* 1064 BlockAddIDExtraData *) mkCtx 16877 KBinary None None sGlobals;
   (* 1065 BlockAdditionMapping *) mkCtx 16868 KMaster None (Some sBlockAdditionMapping) sGlobals;
   (* 1066 Name *) mkCtx 21358 KUni None None sGlobals;
   (* 1067 Language *) mkCtx 2274716 KString (Some (DStr [101; 110; 103])) None sGlobals;
   (* 1068 LanguageBCP47 *) mkCtx 2274717 KString None None sGlobals;
   (* 1069 CodecID *) mkCtx 134 KString None None sGlobals;
   (* 1070 CodecPrivate *) mkCtx 25506 KBinary None None sGlobals;
   (* 1071 CodecName *) mkCtx 2459272 KUni None None sGlobals;
   (* 1072 AttachmentLink *) mkCtx 29766 KUInt None None sGlobals;
   (* 1073 CodecSettings *) mkCtx 3839639 KUni None None sGlobals;
   (* 1074 CodecInfoURL *) mkCtx 3883072 KString None None sGlobals;
   (* 1075 CodecDownloadURL *) mkCtx 2536000 KString None None sGlobals;
   (* 1076 CodecDecodeAll *) mkCtx 170 KUInt (Some (DInt 1)) None sGlobals;
   (* 1077 TrackOverlay *) mkCtx 28587 KUInt None None sGlobals;
   (* 1078 CodecDelay *) mkCtx 22186 KUInt (Some (DInt 0)) None sGlobals;
   (* 1079 SeekPreRoll *) mkCtx 22203 KUInt (Some (DInt 0)) None sGlobals;
   (* 1080 TrackTranslateTrackID *) mkCtx 26277 KBinary None None sGlobals;
   (* 1081 TrackTranslateCodec *) mkCtx 26303 KUInt None None sGlobals;
   (* 1082 TrackTranslateEditionUID *) mkCtx 26364 KUInt None None sGlobals;
   (* 1083 TrackTranslate *) mkCtx 26148 KMaster None (Some sTrackTranslate) sGlobals;
   (* 1084 FlagInterlaced *) mkCtx 154 KUInt (Some (DInt 0)) None sGlobals;
   (* 1085 FieldOrder *) mkCtx 157 KUInt (Some (DInt 2)) None sGlobals;
   (* 1086 StereoMode *) mkCtx 21432 KUInt (Some (DInt 0)) None sGlobals;
   (* 1087 AlphaMode *) mkCtx 21440 KUInt (Some (DInt 0)) None sGlobals;
   (* 1088 OldStereoMode *) mkCtx 21433 KUInt None None sGlobals;
   (* 1089 PixelWidth *) mkCtx 176 KUInt None None sGlobals;
   (* 1090 PixelHeight *) mkCtx 186 KUInt None None sGlobals;
   (* 1091 PixelCropBottom *) mkCtx 21674 KUInt (Some (DInt 0)) None sGlobals;
   (* 1092 PixelCropTop *) mkCtx 21691 KUInt (Some (DInt 0)) None sGlobals;
   (* 1093 PixelCropLeft *) mkCtx 21708 KUInt (Some (DInt 0)) None sGlobals;
   (* 1094 PixelCropRight *) mkCtx 21725 KUInt (Some (DInt 0)) None sGlobals;
   (* 1095 DisplayWidth *) mkCtx 21680 KUInt None None sGlobals;
   (* 1096 DisplayHeight *) mkCtx 21690 KUInt None None sGlobals;
   (* 1097 DisplayUnit *) mkCtx 21682 KUInt (Some (DInt 0)) None sGlobals;
   (* 1098 AspectRatioType *) mkCtx 21683 KUInt (Some (DInt 0)) None sGlobals;
   (* 1099 UncompressedFourCC *) mkCtx 3061028 KBinary None None sGlobals;
   (* 1100 GammaValue *) mkCtx 3126563 KFloat None None sGlobals;
   (* 1101 FrameRate *) mkCtx 2327523 KFloat None None sGlobals;
   (* 1102 MatrixCoefficients *) mkCtx 21937 KUInt (Some (DInt 2)) None sGlobals;
   (* 1103 BitsPerChannel *) mkCtx 21938 KUInt (Some (DInt 0)) None sGlobals;
   (* 1104 ChromaSubsamplingHorz *) mkCtx 21939 KUInt None None sGlobals;
   (* 1105 ChromaSubsamplingVert *) mkCtx 21940 KUInt None None sGlobals;
   (* 1106 CbSubsamplingHorz *) mkCtx 21941 KUInt None None sGlobals;
   (* 1107 CbSubsamplingVert *) mkCtx 21942 KUInt None None sGlobals;
   (* 1108 ChromaSitingHorz *) mkCtx 21943 KUInt (Some (DInt 0)) None sGlobals;
   (* 1109 ChromaSitingVert *) mkCtx 21944 KUInt (Some (DInt 0)) None sGlobals;
   (* 1110 Range *) mkCtx 21945 KUInt (Some (DInt 0)) None sGlobals;
   (* 1111 TransferCharacteristics *) mkCtx 21946 KUInt (Some (DInt 2)) None sGlobals;
   (* 1112 Primaries *) mkCtx 21947 KUInt (Some (DInt 2)) None sGlobals;
   (* 1113 MaxCLL *) mkCtx 21948 KUInt None None sGlobals;
   (* 1114 MaxFALL *) mkCtx 21949 KUInt None None sGlobals;
   (* 1115 PrimaryRChromaticityX *) mkCtx 21969 KFloat None None sGlobals;
   (* 1116 PrimaryRChromaticityY *) mkCtx 21970 KFloat None None sGlobals;
   (* 1117 PrimaryGChromaticityX *) mkCtx 21971 KFloat None None sGlobals;
   (* 1118 PrimaryGChromaticityY *) mkCtx 21972 KFloat None None sGlobals;
   (* 1119 PrimaryBChromaticityX *) mkCtx 21973 KFloat None None sGlobals;
   (* 1120 PrimaryBChromaticityY *) mkCtx 21974 KFloat None None sGlobals;
   (* 1121 WhitePointChromaticityX *) mkCtx 21975 KFloat None None sGlobals;
   (* 1122 WhitePointChromaticityY *) mkCtx 21976 KFloat None None sGlobals;
   (* 1123 LuminanceMax *) mkCtx 21977 KFloat None None sGlobals;
   (* 1124 LuminanceMin *) mkCtx 21978 KFloat None None sGlobals;
   (* 1125 MasteringMetadata *) mkCtx 21968 KMaster None (Some sMasteringMetadata) sGlobals;
   (* 1126 Colour *) mkCtx 21936 KMaster None (Some sColour) sGlobals;
   (* 1127 ProjectionType *) mkCtx 30321 KUInt (Some (DInt 0)) None sGlobals;
   (* 1128 ProjectionPrivate *) mkCtx 30322 KBinary None None sGlobals;
   (* 1129 ProjectionPoseYaw *) mkCtx 30323 KFloat (Some (DInt 0)) None sGlobals;
   (* 1130 ProjectionPosePitch *) mkCtx 30324 KFloat (Some (DInt 0)) None sGlobals;
   (* 1131 ProjectionPoseRoll *) mkCtx 30325 KFloat (Some (DInt 0)) None sGlobals;
   (* 1132 Projection *) mkCtx 30320 KMaster None (Some sProjection) sGlobals;
   (* 1133 Video *) mkCtx 224 KMaster None (Some sVideo) sGlobals;
   (* 1134 SamplingFrequency *) mkCtx 181 KFloat (Some (DInt 8000)) None sGlobals;
   (* 1135 OutputSamplingFrequency *) mkCtx 30901 KFloat None None sGlobals;
   (* 1136 Channels *) mkCtx 159 KUInt (Some (DInt 1)) None sGlobals;
   (* 1137 ChannelPositions *) mkCtx 32123 KBinary None None sGlobals;
   (* 1138 BitDepth *) mkCtx 25188 KUInt None None sGlobals;
   (* 1139 Emphasis *) mkCtx 21233 KUInt (Some (DInt 0)) None sGlobals;
   (* 1140 Audio *) mkCtx 225 KMaster None (Some sAudio) sGlobals;
   (* 1141 TrackPlaneUID *) mkCtx 229 KUInt None None sGlobals;
   (* 1142 TrackPlaneType *) mkCtx 230 KUInt None None sGlobals;
   (* 1143 TrackPlane *) mkCtx 228 KMaster None (Some sTrackPlane) sGlobals;
   (* 1144 TrackCombinePlanes *) mkCtx 227 KMaster None (Some sTrackCombinePlanes) sGlobals;
   (* 1145 TrackJoinUID *) mkCtx 237 KUInt None None sGlobals;
   (* 1146 TrackJoinBlocks *) mkCtx 233 KMaster None (Some sTrackJoinBlocks) sGlobals;
   (* 1147 TrackOperation *) mkCtx 226 KMaster None (Some sTrackOperation) sGlobals;
   (* 1148 TrickTrackUID *) mkCtx 192 KUInt None None sGlobals;
   (* 1149 TrickTrackSegmentUID *) mkCtx 193 KBinary None None sGlobals;
   (* 1150 TrickTrackFlag *) mkCtx 198 KUInt (Some (DInt 0)) None sGlobals;
   (* 1151 TrickMasterTrackUID *) mkCtx 199 KUInt None None sGlobals;
   (* 1152 TrickMasterTrackSegmentUID *) mkCtx 196 KBinary None None sGlobals;
   (* 1153 ContentEncodingOrder *) mkCtx 20529 KUInt (Some (DInt 0)) None sGlobals;
   (* 1154 ContentEncodingScope *) mkCtx 20530 KUInt (Some (DInt 1)) None sGlobals;
   (* 1155 ContentEncodingType *) mkCtx 20531 KUInt (Some (DInt 0)) None sGlobals;
   (* 1156 ContentCompAlgo *) mkCtx 16980 KUInt (Some (DInt 0)) None sGlobals;
   (* 1157 ContentCompSettings *) mkCtx 16981 KBinary None None sGlobals;
   (* 1158 ContentCompression *) mkCtx 20532 KMaster None (Some sContentCompression) sGlobals;
   (* 1159 ContentEncAlgo *) mkCtx 18401 KUInt (Some (DInt 0)) None sGlobals;
   (* 1160 ContentEncKeyID *) mkCtx 18402 KBinary None None sGlobals;
   (* 1161 AESSettingsCipherMode *) mkCtx 18408 KUInt None None sGlobals;
   (* 1162 ContentEncAESSettings *) mkCtx 18407 KMaster None (Some sContentEncAESSettings) sGlobals;
   (* 1163 ContentSignature *) mkCtx 18403 KBinary None None sGlobals;
   (* 1164 ContentSigKeyID *) mkCtx 18404 KBinary None None sGlobals;
   (* 1165 ContentSigAlgo *) mkCtx 18405 KUInt (Some (DInt 0)) None sGlobals;
   (* 1166 ContentSigHashAlgo *) mkCtx 18406 KUInt (Some (DInt 0)) None sGlobals;
   (* 1167 ContentEncryption *) mkCtx 20533 KMaster None (Some sContentEncryption) sGlobals;
   (* 1168 ContentEncoding *) mkCtx 25152 KMaster None (Some sContentEncoding) sGlobals;
   (* 1169 ContentEncodings *) mkCtx 28032 KMaster None (Some sContentEncodings) sGlobals;
   (* 1170 TrackEntry *) mkCtx 174 KMaster None (Some sTrackEntry) sGlobals;
   (* 1171 Tracks *) mkCtx 374648427 KMaster None (Some sTracks) sGlobals;
   (* 1172 CueTime *) mkCtx 179 KUInt None None sGlobals;
   (* 1173 CueTrack *) mkCtx 247 KUInt None None sGlobals;
   (* 1174 CueClusterPosition *) mkCtx 241 KUInt None None sGlobals;
   (* 1175 CueRelativePosition *) mkCtx 240 KUInt None None sGlobals;
   (* 1176 CueDuration *) mkCtx 178 KUInt None None sGlobals;
   (* 1177 CueBlockNumber *) mkCtx 21368 KUInt None None sGlobals;
   (* 1178 CueCodecState *) mkCtx 234 KUInt (Some (DInt 0)) None sGlobals;
   (* 1179 CueRefTime *) mkCtx 150 KUInt None None sGlobals;
   (* 1180 CueRefCluster *) mkCtx 151 KUInt None None sGlobals;
   (* 1181 CueRefNumber *) mkCtx 21343 KUInt (Some (DInt 1)) None sGlobals;
   (* 1182 CueRefCodecState *) mkCtx 235 KUInt (Some (DInt 0)) None sGlobals;
   (* 1183 CueReference *) mkCtx 219 KMaster None (Some sCueReference) sGlobals;
   (* 1184 CueTrackPositions *) mkCtx 183 KMaster None (Some sCueTrackPositions) sGlobals;
   (* 1185 CuePoint *) mkCtx 187 KMaster None (Some sCuePoint) sGlobals;
   (* 1186 Cues *) mkCtx 475249515 KMaster None (Some sCues) sGlobals;
   (* 1187 FileDescription *) mkCtx 18046 KUni None None sGlobals;
   (* 1188 FileName *) mkCtx 18030 KUni None None sGlobals;
   (* 1189 FileMediaType *) mkCtx 18016 KString None None sGlobals;
   (* 1190 FileData *) mkCtx 18012 KBinary None None sGlobals;
   (* 1191 FileUID *) mkCtx 18094 KUInt None None sGlobals;
   (* 1192 FileReferral *) mkCtx 18037 KBinary None None sGlobals;
   (* 1193 FileUsedStartTime *) mkCtx 18017 KUInt None None sGlobals;
   (* 1194 FileUsedEndTime *) mkCtx 18018 KUInt None None sGlobals;
   (* 1195 AttachedFile *) mkCtx 24999 KMaster None (Some sAttachedFile) sGlobals;
   (* 1196 Attachments *) mkCtx 423732329 KMaster None (Some sAttachments) sGlobals;
   (* 1197 EditionUID *) mkCtx 17852 KUInt None None sGlobals;
   (* 1198 EditionFlagHidden *) mkCtx 17853 KUInt (Some (DInt 0)) None sGlobals;
   (* 1199 EditionFlagDefault *) mkCtx 17883 KUInt (Some (DInt 0)) None sGlobals;
   (* 1200 EditionFlagOrdered *) mkCtx 17885 KUInt (Some (DInt 0)) None sGlobals;
   (* 1201 EditionString *) mkCtx 17697 KUni None None sGlobals;
   (* 1202 EditionLanguageIETF *) mkCtx 17892 KString None None sGlobals;
   (* 1203 EditionDisplay *) mkCtx 17696 KMaster None (Some sEditionDisplay) sGlobals;
   (* 1204 ChapterUID *) mkCtx 29636 KUInt None None sGlobals;
   (* 1205 ChapterStringUID *) mkCtx 22100 KUni None None sGlobals;
   (* 1206 ChapterTimeStart *) mkCtx 145 KUInt None None sGlobals;
   (* 1207 ChapterTimeEnd *) mkCtx 146 KUInt None None sGlobals;
   (* 1208 ChapterFlagHidden *) mkCtx 152 KUInt (Some (DInt 0)) None sGlobals;
   (* 1209 ChapterFlagEnabled *) mkCtx 17816 KUInt (Some (DInt 1)) None sGlobals;
   (* 1210 ChapterSegmentUUID *) mkCtx 28263 KBinary None None sGlobals;
   (* 1211 ChapterSkipType *) mkCtx 17800 KUInt None None sGlobals;
   (* 1212 ChapterSegmentEditionUID *) mkCtx 28348 KUInt None None sGlobals;
   (* 1213 ChapterPhysicalEquiv *) mkCtx 25539 KUInt None None sGlobals;
   (* 1214 ChapterTrackNumber *) mkCtx 137 KUInt None None sGlobals;
   (* 1215 ChapterTrack *) mkCtx 143 KMaster None (Some sChapterTrack) sGlobals;
   (* 1216 ChapString *) mkCtx 133 KUni None None sGlobals;
   (* 1217 ChapLanguage *) mkCtx 17276 KString (Some (DStr [101; 110; 103])) None sGlobals;
   (* 1218 ChapLanguageBCP47 *) mkCtx 17277 KString None None sGlobals;
   (* 1219 ChapCountry *) mkCtx 17278 KString None None sGlobals;
   (* 1220 ChapterDisplay *) mkCtx 128 KMaster None (Some sChapterDisplay) sGlobals;
   (* 1221 ChapProcessCodecID *) mkCtx 26965 KUInt (Some (DInt 0)) None sGlobals;
   (* 1222 ChapProcessPrivate *) mkCtx 17677 KBinary None None sGlobals;
   (* 1223 ChapProcessTime *) mkCtx 26914 KUInt None None sGlobals;
   (* 1224 ChapProcessData *) mkCtx 26931 KBinary None None sGlobals;
   (* 1225 ChapProcessCommand *) mkCtx 26897 KMaster None (Some sChapProcessCommand) sGlobals;
   (* 1226 ChapProcess *) mkCtx 26948 KMaster None (Some sChapProcess) sGlobals;
   (* 1227 ChapterAtom *) mkCtx 182 KMaster None (Some sChapterAtom) sGlobals;
   (* 1228 EditionEntry *) mkCtx 17849 KMaster None (Some sEditionEntry) sGlobals;
   (* 1229 Chapters *) mkCtx 272869232 KMaster None (Some sChapters) sGlobals;
   (* 1230 TargetTypeValue *) mkCtx 26826 KUInt (Some (DInt 50)) None sGlobals;
   (* 1231 TargetType *) mkCtx 25546 KString None None sGlobals;
   (* 1232 TagTrackUID *) mkCtx 25541 KUInt (Some (DInt 0)) None sGlobals;
   (* 1233 TagEditionUID *) mkCtx 25545 KUInt (Some (DInt 0)) None sGlobals;
   (* 1234 TagChapterUID *) mkCtx 25540 KUInt (Some (DInt 0)) None sGlobals;
   (* 1235 TagAttachmentUID *) mkCtx 25542 KUInt (Some (DInt 0)) None sGlobals;
   (* 1236 Targets *) mkCtx 25536 KMaster None (Some sTargets) sGlobals;
   (* 1237 TagName *) mkCtx 17827 KUni None None sGlobals;
   (* 1238 TagLanguage *) mkCtx 17530 KString (Some (DStr [117; 110; 100])) None sGlobals;
   (* 1239 TagLanguageBCP47 *) mkCtx 17531 KString None None sGlobals;
   (* 1240 TagDefault *) mkCtx 17540 KUInt (Some (DInt 1)) None sGlobals;
   (* 1241 TagDefaultBogus *) mkCtx 17588 KUInt (Some (DInt 1)) None sGlobals;
   (* 1242 TagString *) mkCtx 17543 KUni None None sGlobals;
   (* 1243 TagBinary *) mkCtx 17541 KBinary None None sGlobals;
   (* 1244 SimpleTag *) mkCtx 26568 KMaster None (Some sSimpleTag) sGlobals;
   (* 1245 Tag *) mkCtx 29555 KMaster None (Some sTag) sGlobals;
   (* 1246 Tags *) mkCtx 307544935 KMaster None (Some sTags) sGlobals;
   (* 1247 Segment *) mkCtx 408125543 KMaster None (Some sSegment) sGlobals].
(** No context. *)
Definition mk_none : ctx := mkCtx 0 KDummy None None [].
Definition mk : schema := fun c => if c <? 0 then mk_none else nth (Z.to_nat c) mk_list mk_none.
(** The contexts of class MATROSKA_SEGMENTUID_CLASS. *)
Definition mk_uids : list Z := [cSegmentUUID; cPrevUUID; cNextUUID; cSegmentFamily; cTrickTrackSegmentUID; cTrickMasterTrackSegmentUID; cChapterSegmentUUID].
(** The profiles, matroska2/matroska.h 22-28. *)
Definition PROFILE_V1 : Z := 1.
Definition PROFILE_V2 : Z := 2.
Definition PROFILE_V3 : Z := 4.
Definition PROFILE_WEBM : Z := 8.
Definition PROFILE_DIVX : Z := 16.
Definition PROFILE_V4 : Z := 32.
Definition PROFILE_V5 : Z := 64.
