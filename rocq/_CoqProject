-Q theories Verif
theories/Base.v
theories/BaseFacts.v
theories/Text.v
theories/IntModel.v
theories/IntSpec.v
theories/IntProofs.v
theories/ParserModel.v
theories/ParserSpec.v
theories/ParserProofs.v
theories/ParserFacts.v
theories/OidModel.v
theories/OidSpec.v
theories/OidProofs.v
theories/BitModel.v
theories/BitSpec.v
theories/BitProofs.v
theories/TeletexTable.v
theories/CodecModel.v
theories/CodecSpec.v
theories/CodecProofs.v
theories/Calendar.v
theories/TimeModel.v
theories/TimeSpec.v
theories/TimeProofs.v
theories/ExtModel.v
theories/ExtProofs.v
theories/TagSpec.v
theories/PrimModel.v
theories/TagProofs.v
theories/PrimSpec.v
theories/TimeFacts.v
theories/PrimProofs.v
theories/PrimSet.v
theories/PrimDump.v
theories/PrimLoad.v
theories/HistSpec.v
theories/PrimHist.v
theories/ChunkSpec.v
theories/ChunkProofs.v
theories/PrimRead.v
theories/PrimMore.v
theories/PrimSide.v
theories/TimeText.v
theories/TimeTextProofs.v
theories/SegLoad.v
theories/PrimFinal.v
theories/PrimUnused.v
theories/PropertiesUnused.v
theories/ContModel.v
theories/ContSpec.v
theories/ContBase.v
theories/ContRep.v
theories/ContPrim.v
theories/ContSeq.v
theories/ContSeq2.v
theories/ContList.v
theories/ContChoice.v
theories/ContPath.v
theories/ContHistSpec.v
theories/ContHist.v
theories/ContHist2.v
theories/ContFinal.v
theories/ContEx.v
theories/PropertiesCont.v
theories/PropertiesInt.v
theories/PropertiesParser.v
theories/PropertiesOid.v
theories/PropertiesBits.v
theories/PropertiesCodec.v
theories/PropertiesTime.v
theories/PropertiesExt.v
theories/PropertiesPrim.v
theories/PropertiesChunk.v
theories/PemModel.v
theories/PemSpec.v
theories/PemProofs.v
theories/PemSound.v
theories/PemCut.v
theories/PemMore.v
theories/PropertiesPem.v
theories/InetModel.v
theories/InetSpec.v
theories/InetProofs.v
theories/InetAddr.v
theories/InetPlat.v
theories/InetMore.v
theories/PropertiesInet.v
theories/ContReq.v
theories/PropertiesReq.v
theories/EcModel.v
theories/EcSpec.v
theories/EcProofs.v
theories/PropertiesEc.v
theories/NameModel.v
theories/NameSpec.v
theories/NameSort.v
theories/NameProofs.v
theories/NamePrep.v
theories/NameMore.v
theories/PropertiesName.v
theories/DomainModel.v
theories/DomainSpec.v
theories/DomainProofs.v
theories/DomainMore.v
theories/PropertiesDomain.v
theories/IriModel.v
theories/IriSpec.v
theories/IriProofs.v
theories/IriUnquote.v
theories/IriParts.v
theories/PropertiesIri.v
theories/Tables.v
theories/MapModel.v
theories/MapSpec.v
theories/MapProofs.v
theories/MapTables.v
theories/PropertiesMap.v
theories/AlgoModel.v
theories/AlgoSpec.v
theories/AlgoProofs.v
theories/PropertiesAlgo.v
theories/ExtnModel.v
theories/ExtnSpec.v
theories/ExtnProofs.v
theories/PropertiesExtn.v
theories/RegSpec.v
theories/RegProofs.v
theories/PropertiesReg.v
theories/KeyModel.v
theories/KeySpec.v
theories/KeyProofs.v
theories/PropertiesKey.v
theories/InfoModel.v
theories/InfoSpec.v
theories/InfoProofs.v
theories/PropertiesInfo.v
theories/NullModel.v
theories/NullSpec.v
theories/NullProofs.v
theories/PropertiesNull.v
theories/AddrModel.v
theories/AddrSpec.v
theories/AddrProofs.v
theories/PropertiesAddr.v
theories/UriModel.v
theories/UriSpec.v
theories/UriProofs.v
theories/UriQuote.v
theories/UriShow.v
theories/UriEqual.v
theories/PropertiesUri.v
theories/CertModel.v
theories/CertSpec.v
theories/CertProofs.v
theories/PropertiesCert.v
theories/OrdModel.v
theories/OrdSpec.v
theories/OrdProofs.v
theories/PropertiesOrd.v
theories/BerSpec.v
theories/BerProofs.v
theories/BerFinal.v
theories/BerKeep.v
theories/BerRead.v
theories/BerEx.v
theories/PropertiesBer.v
theories/ParsModel.v
theories/ParsSpec.v
theories/ParsProofs.v
theories/ParsFinal.v
theories/PropertiesPars.v
theories/ConcatModel.v
theories/ConcatSpec.v
theories/ConcatProofs.v
theories/PropertiesConcat.v
theories/AnyModel.v
theories/AnySpec.v
theories/AnyProofs.v
theories/PropertiesAny.v
theories/CopySpec.v
theories/CopyProofs.v
theories/PropertiesCopy.v
theories/OpenModel.v
theories/OpenSpec.v
theories/OpenProofs.v
theories/OpenEx.v
theories/PropertiesOpen.v
theories/SetSpec.v
theories/SetProofs.v
theories/SetLoad.v
theories/SetFinal.v
theories/SetEx.v
theories/PropertiesSet.v
theories/PickModel.v
theories/PickProofs.v
theories/PropertiesPick.v
theories/GenModel.v
theories/GenSpec.v
theories/GenProofs.v
theories/PropertiesGen.v
theories/ShapeModel.v
theories/Shapes.v
theories/ShapeSpec.v
theories/ShapeProofs.v
theories/PropertiesShape.v
theories/LibModel.v
theories/LibProofs.v
theories/PropertiesLib.v
theories/ReadModel.v
theories/ReadSpec.v
theories/ReadProofs.v
theories/LibRead.v
theories/LibReadProofs.v
theories/PropertiesRead.v
theories/RecodeModel.v
theories/RecodeSpec.v
theories/RecodeProofs.v
theories/LibRecode.v
theories/PropertiesRecode.v
theories/TypeSpec.v
theories/TypeProofs.v
theories/GenAgain.v
theories/WriteModel.v
theories/WriteSpec.v
theories/WriteProofs.v
theories/LibWrite.v
theories/LibWriteProofs.v
theories/PropertiesWrite.v
theories/DateModel.v
theories/DateSpec.v
theories/DateProofs.v
theories/DateProofs2.v
theories/DateProofs3.v
theories/PropertiesDate.v
theories/PropertiesWrite2.v
theories/MemModel.v
theories/MemSpec.v
theories/MemProofs.v
theories/MemProofs2.v
theories/PropertiesMem.v
theories/RaiseSpec.v
theories/RaiseProofs.v
theories/RaiseRead.v
theories/RaiseLib.v
theories/PropertiesRaise.v
theories/ArgModel.v
theories/PropertiesArg.v
theories/ReasonModel.v
theories/PropertiesReason.v
