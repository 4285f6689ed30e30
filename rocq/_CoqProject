-Q theories Verif
theories/Base.v
theories/Bytes.v
theories/Utf8.v
theories/FloatBits.v
theories/FloatInt.v
theories/DmapTypes.v
theories/DmapRead.v
theories/DmapWrite.v
theories/Conversions.v
theories/SDarnFormats.v
theories/SDarn.v
theories/BytesSpec.v
theories/BytesProofs.v
theories/FloatSpec.v
theories/Utf8Proofs.v
theories/FloatBitsProofs.v
theories/FloatRoundProofs.v
theories/FloatIntProofs.v
theories/NumeralSpec.v
theories/NumeralProofs.v
theories/DmapSpec.v
theories/DmapReadProofs.v
theories/DmapFileProofs.v
theories/DmapStreamProofs.v
theories/DmapReadProps.v
theories/DmapFaultSpec.v
theories/DmapFaultProofs.v
theories/DmapFaultProps.v
theories/DmapWriteSpec.v
theories/DmapWriteProofs.v
theories/DmapWriterProofs.v
theories/DmapRewriteProofs.v
theories/DmapWriteFacts.v
theories/DmapObjectProofs.v
theories/DmapConvProofs.v
theories/DmapWriteProps.v
theories/DmapObjectProps.v
theories/SDarnSpec.v
theories/SDarnChecks.v
theories/SDarnProofs.v
theories/SDarnObjectProofs.v
theories/SDarnFileProofs.v
theories/SDarnWriteProofs.v
theories/SDarnProps.v
theories/SDarnObjectProps.v
theories/BorealisTypes.v
theories/BorealisFormats.v
theories/BorealisChecks.v
theories/BorealisArrays.v
theories/BorealisSpec.v
theories/BorealisCheckProofs.v
theories/BorealisCatalogue.v
theories/BorealisCatalogueProofs.v
theories/BorealisCases.v
theories/BorealisProps.v
theories/BorealisShapes.v
theories/BorealisNumpyProofs.v
theories/BorealisFillProofs.v
theories/BorealisRestructFacts.v
theories/BorealisToArrayProofs.v
theories/BorealisRestructProofs.v
theories/BorealisCaseProofs.v
theories/BorealisTime.v
theories/BorealisTimeProofs.v
theories/BorealisArrayProps.v
theories/BorealisFile.v
theories/BorealisFileSpec.v
theories/BorealisFileProofs.v
theories/BorealisFileCaseProofs.v
theories/BorealisFileProps.v
theories/BorealisRestructure.v
theories/BorealisRestructureSpec.v
theories/BorealisRestructureProofs.v
theories/BorealisRestructureProps.v
theories/BorealisRestructureFileSpec.v
theories/BorealisRestructureFileProofs.v
theories/BorealisRestructureToSiteProofs.v
theories/BorealisRestructureFileProps.v
theories/BorealisRestructureToArrayProofs.v
theories/BorealisRestructureArraysProofs.v
theories/BorealisRestructureArrayFileProofs.v
theories/BorealisRestructureArrayFileProps.v
theories/BorealisRestructureRoundProofs.v
theories/BorealisRestructureRoundProps.v
theories/BorealisRestructureNamesSpec.v
theories/BorealisRestructureNamesProofs.v
theories/BorealisRestructureNamesProps.v
theories/BorealisConvert.v
theories/BorealisConvertSpec.v
theories/BorealisConvertProofs.v
theories/BorealisConvertRecordProofs.v
theories/BorealisConvertSampleProofs.v
theories/BorealisConvertFileProofs.v
theories/BorealisConvertProps.v
theories/BorealisAppendSpec.v
theories/BorealisAppendProofs.v
theories/BorealisAppendProps.v
theories/BorealisConvertFieldSpec.v
theories/BorealisConvertNumberProofs.v
theories/BorealisDateProofs.v
theories/BorealisConvertFieldProofs.v
theories/BorealisConvertTailProofs.v
theories/BorealisConvertFieldProps.v
theories/BorealisScale.v
theories/BorealisScaleSpec.v
theories/BorealisScaleProofs.v
theories/BorealisScaleErrorProofs.v
theories/BorealisScaleAcfProofs.v
theories/BorealisScalePowerProofs.v
theories/BorealisScaleProps.v
theories/BorealisConvertTotalSpec.v
theories/BorealisConvertTotalProofs.v
theories/BorealisConvertTotalFileProofs.v
theories/BorealisConvertSizeProofs.v
theories/BorealisConvertTotalProps.v
theories/BorealisCtime.v
theories/BorealisCtimeSpec.v
theories/BorealisCtimeProofs.v
theories/BorealisCtimeProps.v
theories/ObjectTexts.v
theories/ObjectTextSpec.v
theories/ObjectTextsProps.v
theories/ObjectGetters.v
theories/ObjectGettersProps.v
theories/BorealisRestructureBackSpec.v
theories/BorealisRestructureBackProofs.v
theories/BorealisRestructurePhasesProofs.v
theories/BorealisRestructureBackProps.v
theories/DmapShapeSpec.v
theories/DmapShapeProofs.v
theories/DmapShapeProps.v
theories/BorealisRestructureWideProofs.v
theories/BorealisRestructureWideProps.v
theories/BorealisRefuseSpec.v
theories/BorealisRefuseProofs.v
theories/BorealisRefuseProps.v
theories/BorealisConvertSameSpec.v
theories/BorealisConvertSameProofs.v
theories/BorealisConvertSameProps.v
theories/DmapWriteFaultSpec.v
theories/DmapWriteFaultProofs.v
theories/DmapWriteFaultProps.v
theories/DmapCastProps.v
theories/SDarnUtilSpec.v
theories/SDarnUtilProofs.v
theories/SDarnUtilProps.v
theories/SDarnFaultSpec.v
theories/SDarnFaultProofs.v
theories/SDarnFaultProps.v
theories/SDarnReadFaultProofs.v
theories/SDarnReadFaultProps.v
theories/BorealisReadFaultSpec.v
theories/BorealisReadFaultProofs.v
theories/BorealisReadFaultProps.v
theories/DmapNumberSpec.v
theories/DmapNumberProofs.v
theories/DmapNumberProps.v
theories/WriterBlockedProofs.v
theories/WriterBlockedProps.v
theories/DmapShare.v
theories/DmapShareSpec.v
theories/DmapShareProofs.v
theories/DmapShareProps.v
theories/DmapNormalSpec.v
theories/DmapNormalProofs.v
theories/DmapNormalProps.v
theories/BorealisConvertFaultSpec.v
theories/BorealisConvertFaultProofs.v
theories/BorealisConvertFaultProps.v
theories/BorealisStoreSpec.v
theories/BorealisStoreProofs.v
theories/BorealisStoreProps.v
theories/BorealisOtherProofs.v
theories/BorealisOtherProps.v
theories/ExceptionTexts.v
theories/ExceptionTextsSpec.v
theories/ExceptionTextsProofs.v
theories/ExceptionTextsProps.v
theories/BorealisUtil.v
theories/BorealisUtilSpec.v
theories/BorealisUtilProofs.v
theories/BorealisUtilProps.v
theories/MessageWordSpec.v
theories/MessageWordProofs.v
theories/MessageWordProps.v
theories/DmapPlainSpec.v
theories/DmapPlainProofs.v
theories/DmapPlainProps.v
theories/DmapBackProofs.v
theories/DmapBackProps.v
theories/DmapAnySpec.v
theories/DmapAnyProofs.v
theories/DmapAnyProps.v
theories/DmapAnyFaultSpec.v
theories/DmapAnyFaultProofs.v
theories/DmapAnyFaultProps.v
theories/ReaderAnyProofs.v
theories/ReaderAnyProps.v
theories/StringArray.v
theories/StringArrayProps.v
theories/DmapCutSpec.v
theories/DmapCutProofs.v
theories/DmapCutProps.v
theories/DmapJoinSpec.v
theories/DmapJoinProofs.v
theories/DmapJoinProps.v
theories/SDarnCatalogueSpec.v
theories/SDarnCatalogueProofs.v
theories/SDarnCatalogueProps.v
theories/RecordNameSpec.v
theories/RecordNameProofs.v
theories/RecordNameProps.v
theories/BorealisTellProofs.v
theories/BorealisTellIqProofs.v
theories/BorealisTellProps.v
theories/RecordNameFileProps.v
theories/RecordNameBeforeProps.v
theories/RecordNameReadProps.v
theories/RecordNameNoneProps.v
theories/DmapCastFloatProps.v
