-Q theories Verif
theories/Bytes.v
theories/BytesProofs.v
theories/DlisTypes.v
theories/SpecTypes.v
theories/DlisCore.v
theories/Stream.v
theories/DlisIo.v
theories/TypesProofs.v
theories/FloatProofs.v
theories/DlisFloatProofs.v
theories/IsinglProofs.v
theories/VaxProofs.v
theories/VaxProofs2.v
theories/ExactProofs.v
theories/TypesProofs2.v
theories/SpecCore.v
theories/CoreProofs.v
theories/CoreProofs2.v
theories/SpecIo.v
theories/IoProofs.v
theories/IoProofs2.v
theories/DlisRecords.v
theories/SpecRecords.v
theories/RecordsProofs.v
theories/RecordsProofs2.v
theories/RecordsProofs3.v
theories/PyBase.v
theories/DlisFdata.v
theories/SpecFdata.v
theories/FdataProofs.v
theories/FdataProofs2.v
theories/FdataProofs3.v
theories/TextExactProofs.v
theories/LisTypes.v
theories/LisTypesProofs.v
theories/SpecLisTypes.v
theories/LisTypesProofs2.v
theories/LisProtocol.v
theories/LisIo.v
theories/SpecLisIo.v
theories/LisIoProofs.v
theories/LisIoProofs2.v
theories/LisIoProofs3.v
theories/LisIoProofs4.v
theories/LisIoProofs5.v
theories/SpecLisProtocol.v
theories/LisProtocolProofs.v
theories/LisProtocolProofs2.v
theories/LisPy.v
theories/LisCurves.v
theories/SpecLisCurves.v
theories/LisCurvesProofs.v
theories/LisCurvesProofs2.v
theories/LisCurvesProofs3.v
theories/LisCurvesProofs4.v
theories/LisCurvesProofs5.v
theories/LisCurvesProofs6.v
theories/LisCurvesProofs7.v
theories/LisInfo.v
theories/SpecLisPy.v
theories/LisPyProofs.v
theories/LisInfoProofs.v
theories/Tapemark.v
theories/LisLoad.v
theories/SpecLisLoad.v
theories/LisLoadProofs.v
theories/LisLoadProofs2.v
theories/LisLoadProofs3.v
theories/LisLoadProofs4.v
theories/LisLoadProofs5.v
theories/SpecLisAny.v
theories/LisAnyProofs.v
theories/CommonPy.v
theories/SpecCommon.v
theories/CommonProofs.v
theories/Lfp.v
theories/DlisLoad.v
theories/SpecDlisLoad.v
theories/DlisLoadProofs.v
theories/DlisLoadProofs2.v
theories/DlisLoadProofs3.v
theories/DlisLoadProofs4.v
theories/DlisStore.v
theories/SpecDlisStore.v
theories/DlisStoreProofs.v
theories/DlisStoreProofs2.v
theories/DlisStoreProofs3.v
theories/DlisStoreProofs4.v
theories/DlisStoreProofs5.v
theories/DlisStoreProofs6.v
theories/DlisSchema.v
theories/DlisObject.v
theories/SpecDlisObject.v
theories/DlisObjectProofs.v
theories/DlisObjectProofs2.v
theories/DlisObjectProofs3.v
theories/DlisObjectProofs4.v
theories/DlisObjectProofs5.v
theories/DlisObjectProofs6.v
theories/DlisFrame.v
theories/SpecDlisFrame.v
theories/DlisFrameProofs.v
theories/DlisFrameProofs2.v
theories/DlisFrameProofs3.v
theories/DlisFrameProofs4.v
theories/DlisFrameProofs5.v
theories/DlisFrameProofs6.v
theories/Dimensional.v
theories/SpecDimensional.v
theories/DimensionalProofs.v
theories/DimensionalProofs2.v
theories/DimensionalProofs3.v
theories/DimensionalProofs4.v
theories/DlisCurves.v
theories/SpecDlisCurves.v
theories/DlisCurvesProofs.v
theories/DlisCurvesProofs2.v
theories/DlisCurvesProofs3.v
theories/DlisCurvesProofs4.v
theories/DlisCurvesProofs5.v
theories/DlisCurvesExample.v
theories/DlisClasses.v
theories/SpecDlisClasses.v
theories/DlisClassesProofs.v
theories/DlisClassesProofs2.v
theories/LisFile.v
theories/SpecLisFile.v
theories/LisFileProofs.v
theories/LisFileProofs2.v
theories/DlisDescribe.v
theories/SpecDlisDescribe.v
theories/DlisDescribeProofs.v
theories/DlisDescribeProofs2.v
theories/DlisDescribeProofs3.v
theories/DlisDescribeProofs4.v
theories/DlisDescribeProofs5.v
theories/DlisDescribeProofs6.v
theories/PropTypes.v
theories/PropExact.v
theories/PropCore.v
theories/PropIo.v
theories/PropRecords.v
theories/PropFdata.v
theories/PropLisTypes.v
theories/PropLisIo.v
theories/PropLisProtocol.v
theories/PropLisCurves.v
theories/PropLisPy.v
theories/PropLisLoad.v
theories/PropLisAny.v
theories/PropCommon.v
theories/PropDlisLoad.v
theories/PropDlisStore.v
theories/PropDlisObject.v
theories/SpecDlisParent.v
theories/DlisParentProofs.v
theories/PropDlisParent.v
theories/PropDlisFrame.v
theories/PropDimensional.v
theories/PropDlisCurves.v
theories/PropDlisClasses.v
theories/PropLisFile.v
theories/LisTable.v
theories/SpecLisTable.v
theories/LisTableProofs.v
theories/PropLisTable.v
theories/LisSameProofs.v
theories/PropLisBefore.v
theories/PropDlisDescribe.v
theories/PropDlisDescribeFile.v
theories/Handles.v
theories/SpecHandles.v
theories/HandlesProofs.v
theories/HandlesProofs2.v
theories/HandlesProofs3.v
theories/PropHandles.v
theories/DlisEncodings.v
theories/SpecDlisEncodings.v
theories/DlisEncodingsProofs.v
theories/PropDlisEncodings.v
theories/DlisLabel.v
theories/SpecDlisLabel.v
theories/PropDlisLabel.v
theories/SpecDlisSurvey.v
theories/SpecHandler.v
theories/HandlerProofs.v
theories/HandlerProofs2.v
theories/HandlerProofs3.v
theories/PropHandler.v
theories/DlisSurveyProofs.v
theories/PropDlisSurvey.v
theories/DlisPrefixProofs.v
theories/PropDlisPrefix.v
theories/SpecDlisCut.v
theories/DlisCutProofs.v
theories/PropDlisCut.v
theories/SpecDlisPrefix.v
theories/SpecIsinglo.v
theories/IsingloProofs.v
theories/PropIsinglo.v
theories/SpecDlisMeta.v
theories/DlisMetaProofs.v
theories/PropDlisMeta.v
theories/PropDlisBytes.v
theories/DlisLayout.v
theories/SpecLayout.v
theories/LayoutProofs.v
theories/PropLayout.v
theories/LisText.v
theories/SpecLisText.v
theories/LisTextProofs.v
theories/PropLisText.v
theories/PropDlisNul.v
