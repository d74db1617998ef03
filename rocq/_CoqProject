-Q theories Verif
theories/ArnModel.v
theories/ArnProps.v
theories/ArrayModel.v
theories/ArrayProps.v
theories/Base.v
theories/BcfMap.v
theories/BcfModel.v
theories/BcfUnpack.v
theories/BloModel.v
theories/BloProps.v
theories/BrkDemo.v
theories/BrkMap.v
theories/BrkMeta.v
theories/BrkModel.v
theories/BrkPic.v
theories/Bytes.v
theories/DateModel.v
theories/DateProps.v
theories/DensFile.v
theories/DensProps.v
theories/DensText.v
theories/Dict.v
theories/DistModel.v
theories/DistProps.v
theories/DmAxes.v
theories/DmFile.v
theories/DmImage.v
theories/DmImageModel.v
theories/DmMetaModel.v
theories/DmModel.v
theories/DmPacked.v
theories/DmProps.v
theories/DmTable.v
theories/DmcFile.v
theories/DmcModel.v
theories/DmcOrder.v
theories/DmcProps.v
theories/DmcTight.v
theories/EdaxHeader.v
theories/EdaxLine.v
theories/EdaxMap.v
theories/EdaxModel.v
theories/EdaxNames.v
theories/EmpadModel.v
theories/EmpadProps.v
theories/FeiModel.v
theories/FeiProof.v
theories/FeiProps.v
theories/FeiSpec.v
theories/HamFile.v
theories/HamMeta.v
theories/HamModel.v
theories/HamText.v
theories/HierModel.v
theories/HierProof.v
theories/HierProps.v
theories/HierSpec.v
theories/HierUpdate.v
theories/ImgModel.v
theories/ImgProps.v
theories/ImgTight.v
theories/ImpDemo.v
theories/ImpFile.v
theories/ImpProps.v
theories/JeolCube.v
theories/JeolLazy.v
theories/JeolModel.v
theories/JeolProps.v
theories/JyData.v
theories/JyFile.v
theories/JyMeta.v
theories/JyModel.v
theories/LogModel.v
theories/LogTable.v
theories/LogText.v
theories/MibImage.v
theories/MibModel.v
theories/MibProps.v
theories/MrcModel.v
theories/MrcProps.v
theories/MsaModel.v
theories/MsaProps.v
theories/MsaWrite.v
theories/NcModel.v
theories/NcProps.v
theories/NcemDemo.v
theories/NcemFile.v
theories/NcemModel.v
theories/NcemProps.v
theories/NcemTight.v
theories/NcemWrite.v
theories/NpyModel.v
theories/NpyProps.v
theories/NxAxes.v
theories/NxDemo.v
theories/NxFile.v
theories/NxFind.v
theories/NxMeta.v
theories/NxModel.v
theories/NxProps.v
theories/NxSearch.v
theories/NxTight.v
theories/PathModel.v
theories/PathProps.v
theories/PhFile.v
theories/PhImage.v
theories/PhModel.v
theories/PhProps.v
theories/PhTight.v
theories/ProtoDemo.v
theories/ProtoFile.v
theories/ProtoProps.v
theories/PrzAxes.v
theories/PrzAxesModel.v
theories/PrzModel.v
theories/PrzProps.v
theories/PySlice.v
theories/QuadModel.v
theories/QuadMore.v
theories/QuadSac.v
theories/QuadSbc.v
theories/RenBlocks.v
theories/RenData.v
theories/RenDemo.v
theories/RenMeta.v
theories/RenModel.v
theories/RenPset.v
theories/RenWhole.v
theories/RowMajor.v
theories/RplModel.v
theories/RplProps.v
theories/SemperModel.v
theories/SemperProof.v
theories/SemperProps.v
theories/SfsEntry.v
theories/SfsModel.v
theories/SfsProps.v
theories/SfsTree.v
theories/SurComment.v
theories/SurFile.v
theories/SurFloat.v
theories/SurMeta.v
theories/SurMetaModel.v
theories/SurMethods.v
theories/SurModel.v
theories/SurQuantity.v
theories/SurScale.v
theories/SurSignal.v
theories/SurStreams.v
theories/Text.v
theories/TiaData.v
theories/TiaEmi.v
theories/TiaModel.v
theories/TiaProps.v
theories/TifCal.v
theories/TifModel.v
theories/TifRead.v
theories/TifStreak.v
theories/TofDemo.v
theories/TofFile.v
theories/TofModel.v
theories/TofPeaks.v
theories/TofProps.v
theories/TofTight.v
theories/TopDemo.v
theories/TopFile.v
theories/TopModel.v
theories/TopMore.v
theories/TopScan.v
theories/TopTasks.v
theories/TvMeta.v
theories/TvModel.v
theories/TvProps.v
theories/TvipsModel.v
theories/TvipsProof.v
theories/TvipsProps.v
theories/TvipsScan.v
theories/UsidModel.v
theories/UsidProps.v
theories/UsidWrite.v
theories/Utf8.v
theories/VxDemo.v
theories/VxImage.v
theories/VxMeta.v
theories/VxModel.v
theories/VxProps.v
theories/VxSpectrum.v
theories/VxStream.v
theories/XmlDict.v
theories/XmlModel.v
theories/XmlProps.v
