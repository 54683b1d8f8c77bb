-Q theories Verif

theories/Base.v
theories/BaseProofs.v
theories/Vint.v
theories/VintSpec.v
theories/VintProofs.v
theories/EbmlId.v
theories/EbmlIdSpec.v
theories/EbmlIdProofs.v
theories/IntElt.v
theories/IntEltSpec.v
theories/IntEltProofs.v
theories/CrcTable.v
theories/Crc.v
theories/CrcSpec.v
theories/CrcProofs.v
theories/EltHead.v
theories/Void.v
theories/VoidSpec.v
theories/VoidProofs.v
theories/PropCodec.v
theories/Arr.v
theories/ArrSpec.v
theories/ArrProofs.v
theories/ArrProofs2.v
theories/PropArr.v
theories/Stream.v
theories/StreamSpec.v
theories/StreamProofs.v
theories/PropStream.v
theories/Ebml.v
theories/Finder.v
theories/FinderSpec.v
theories/FinderProofs.v
theories/FinderProofs2.v
theories/FinderProofs3.v
theories/FinderProofs4.v
theories/PropFinder.v
theories/NodeTree.v
theories/NodeTreeSpec.v
theories/NodeTreeProofs.v
theories/PropNode.v
theories/Tree.v
theories/TreeRead.v
theories/TreeSpec.v
theories/TreeProofs.v
theories/TreeProofs2.v
theories/TreeProofs3.v
theories/TreeProofs4.v
theories/TreeProofs5.v
theories/TreeProofs6.v
theories/PropTree.v
theories/Create.v
theories/CreateSpec.v
theories/CreateProofs.v
theories/CreateProofs2.v
theories/PropCreate.v
theories/Block.v
theories/BlockSpec.v
theories/BlockProofs.v
theories/BlockProofs2.v
theories/BlockProofs3.v
theories/Frame.v
theories/BlockProofs4.v
theories/BlockProofs5.v
theories/BlockProofs6.v
theories/PropBlock.v
theories/BlockTime.v
theories/BlockTimeProofs.v
theories/PropTime.v
theories/ArrProofs3.v
theories/ArrProofs4.v
theories/Cues.v
theories/CuesSpec.v
theories/CuesProofs.v
theories/CuesProofs2.v
theories/PropCues.v
theories/ClusterSort.v
theories/ClusterSortSpec.v
theories/ClusterSortProofs.v
theories/PropCluster.v
theories/Lzo.v
theories/LzoSpec.v
theories/LzoProofs.v
theories/LzoProofs2.v
theories/LzoProofs3.v
theories/LzoBlock.v
theories/LzoBlockProofs.v
theories/PropLzo.v
theories/CodePages.v
theories/Text.v
theories/TextSpec.v
theories/TextProofs.v
theories/TextProofs2.v
theories/TextProofs3.v
theories/PropText.v
theories/Str.v
theories/StrSpec.v
theories/StrProofs.v
theories/StrProofs2.v
theories/StrProofs3.v
theories/PropStr.v
theories/Printf.v
theories/PrintfSpec.v
theories/PrintfProofs.v
theories/PrintfProofs2.v
theories/PrintfProofs3.v
theories/Scan.v
theories/ScanSpec.v
theories/ScanProofs.v
theories/ScanProofs2.v
theories/PropPrintf.v
theories/Durations.v
theories/DurationsSpec.v
theories/DurationsProofs.v
theories/PropDurations.v
theories/Path.v
theories/PathSpec.v
theories/PathProofs.v
theories/PathProofs2.v
theories/PathProofs3.v
theories/PropPath.v
theories/Tracks.v
theories/TracksSpec.v
theories/TracksProofs.v
theories/TracksProofs2.v
theories/TracksProofs3.v
theories/PropTracks.v
theories/MkSchema.v
theories/MkSpec.v
theories/MkProofs.v
theories/PropMk.v
theories/Expr.v
theories/ExprSpec.v
theories/ExprProofs.v
theories/ExprProofs2.v
theories/ExprProofs3.v
theories/PropExpr.v
theories/Validator.v
theories/ValidatorSpec.v
theories/ValidatorProofs.v
theories/ValidatorProofs2.v
theories/ValidatorProofs3.v
theories/ValidatorProofs4.v
theories/ValidatorProofs5.v
theories/ValidatorProofs6.v
theories/ValidatorProofs7.v
theories/ValidatorProofs8.v
theories/ValidatorProofs9.v
theories/ValidatorProofs10.v
theories/ValidatorProofs11.v
theories/PropValidator.v
theories/Remux.v
theories/RemuxSpec.v
theories/RemuxProofs.v
theories/RemuxProofs2.v
theories/RemuxProofs3.v
theories/RemuxProofs4.v
theories/RemuxProofs5.v
theories/RemuxProofs6.v
theories/PropRemux.v
theories/Clean.v
theories/CleanSpec.v
theories/CleanProofs.v
theories/CleanProofs2.v
theories/PropClean.v
theories/Layout.v
theories/LayoutSpec.v
theories/LayoutProofs.v
theories/LayoutProofs2.v
theories/LayoutProofs3.v
theories/PropLayout.v
theories/Reduce.v
theories/ReduceSpec.v
theories/ReduceProofs.v
theories/ReduceProofs2.v
theories/PropReduce.v
theories/TrackClean.v
theories/TrackCleanSpec.v
theories/TrackCleanProofs.v
theories/TrackCleanProofs2.v
theories/TrackCleanProofs3.v
theories/TrackCleanProofs4.v
theories/TrackCleanProofs5.v
theories/PropTrackClean.v
theories/Notify.v
theories/NotifySpec.v
theories/NotifyProofs.v
theories/NotifyProofs2.v
theories/NotifyProofs3.v
theories/NotifyProofs4.v
theories/NotifyProofs5.v
theories/PropNotify.v
theories/NodeData.v
theories/NodeDataSpec.v
theories/NodeDataProofs.v
theories/PropNodeData.v
theories/FindId.v
theories/FindIdSpec.v
theories/FindIdProofs.v
theories/PropFindId.v
theories/AttachSort.v
theories/AttachSortSpec.v
theories/AttachSortProofs.v
theories/PropAttachSort.v
theories/Encode.v
theories/EncodeSpec.v
theories/EncodeProofs.v
theories/EncodeProofs2.v
theories/PropEncode.v
theories/Classes.v
theories/ClassesSpec.v
theories/ClassesProofs.v
theories/ClassesProofs2.v
theories/PropClasses.v
theories/Props.v
theories/PropsSpec.v
theories/PropsProofs.v
theories/PropsProofs2.v
theories/PropsProofs3.v
theories/PropProps.v
theories/Xml.v
theories/XmlSpec.v
theories/XmlProofs.v
theories/XmlProofs2.v
theories/XmlProofs3.v
theories/XmlProofs4.v
theories/PropXml.v
theories/MkArgs.v
theories/MkArgsSpec.v
theories/MkArgsProofs.v
theories/MkArgsProofs2.v
theories/PropMkArgs.v
theories/MkHead.v
theories/MkHeadSpec.v
theories/MkHeadProofs.v
theories/MkHeadProofs2.v
theories/PropMkHead.v
theories/MkInfo.v
theories/MkInfoSpec.v
theories/MkInfoProofs.v
theories/PropMkInfo.v
theories/MkParts.v
theories/MkPartsSpec.v
theories/MkPartsProofs.v
theories/MkPartsProofs2.v
theories/MkPartsProofs3.v
theories/PropMkParts.v
theories/Life.v
theories/LifeSpec.v
theories/LifeProofs.v
theories/LifeProofs2.v
theories/LifeProofs3.v
theories/PropLife.v
theories/ReadCl.v
theories/ReadClSpec.v
theories/ReadClProofs.v
theories/PropReadCl.v
theories/Zlib.v
theories/ZlibSpec.v
theories/ZlibProofs.v
theories/ZlibProofs2.v
theories/ZlibProofs3.v
theories/PropZlib.v
theories/Texts.v
theories/TextsSpec.v
theories/TextsProofs.v
theories/PropTexts.v
theories/Guess.v
theories/GuessSpec.v
theories/GuessProofs.v
theories/PropGuess.v
theories/MkRun.v
theories/PropMkRun.v
theories/Cut.v
theories/CutSpec.v
theories/CutProofs.v
theories/CutProofs2.v
theories/CutProofs3.v
theories/PropCut.v
theories/StrMem.v
theories/StrMemSpec.v
theories/StrMemProofs.v
theories/StrMemProofs2.v
theories/StrMemProofs3.v
theories/PropStrMem.v
theories/Collect.v
theories/CollectSpec.v
theories/CollectProofs.v
theories/PropCollect.v
theories/Names.v
theories/NamesSpec.v
theories/NamesProofs.v
theories/NamesProofs2.v
theories/PropNames.v
theories/BinMem.v
theories/BinMemSpec.v
theories/BinMemProofs.v
theories/PropBinMem.v
theories/Make.v
theories/MakeSpec.v
theories/MakeProofs.v
theories/PropMake.v
theories/NodeCopy.v
theories/NodeCopySpec.v
theories/NodeCopyProofs.v
theories/PropNodeCopy.v
theories/Optim.v
theories/OptimSpec.v
theories/OptimProofs.v
theories/PropOptim.v
theories/Dirs.v
theories/DirsSpec.v
theories/DirsProofs.v
theories/PropDirs.v
theories/FileIO.v
theories/FileIOSpec.v
theories/FileIOProofs.v
theories/PropFileIO.v
theories/Unreg.v
theories/UnregSpec.v
theories/UnregProofs.v
theories/PropUnreg.v
theories/Rates.v
theories/RatesSpec.v
theories/RatesProofs.v
theories/PropRates.v
theories/Opens.v
theories/OpensSpec.v
theories/OpensProofs.v
theories/PropOpens.v
theories/Lookup.v
theories/LookupSpec.v
theories/LookupProofs.v
theories/PropLookup.v
theories/Told.v
theories/ToldSpec.v
theories/PropTold.v
theories/TypeNames.v
theories/TypeNamesSpec.v
theories/PropTypeNames.v
