-Q theories Verif
theories/Base.v
theories/BaseFacts.v
theories/TypesModel.v
theories/TypesSpec.v
theories/TypesProofs.v
theories/CoordsModel.v
theories/CoordsSpec.v
theories/CoordsProofs.v
theories/GeomSpec.v
theories/GeomFacts.v
theories/NodesModel.v
theories/NodesSpec.v
theories/WkbSpec.v
theories/WkbReaderModel.v
theories/WkbReaderProofs.v
theories/WkbReaderSafety.v
theories/VisitorModel.v
theories/VisitorSpec.v
theories/VisitorFacts.v
theories/GeomVisitModel.v
theories/GeomVisitProofs.v
theories/GeomVisitSafety.v
theories/BufferModel.v
theories/BufferFacts.v
theories/ArraySpec.v
theories/WkbWriterModel.v
theories/WkbWriterProofs.v
theories/WkbWriterSpec.v
theories/WkbWriterHistory.v
theories/WkbWriterSafety.v
theories/WkbRoundTrip.v
theories/WkbWriterRefuted.v
theories/Text.v
theories/WktWriterModel.v
theories/WktSpec.v
theories/WktWriterProofs.v
theories/WktWriterSpec.v
theories/WktWriterHistory.v
theories/WktWriterSafety.v
theories/WktReaderModel.v
theories/WktGrammar.v
theories/WktReaderFacts.v
theories/WktReaderProofs.v
theories/WktReaderBodies.v
theories/WktReaderGeoms.v
theories/WktReaderSafety.v
theories/WktReadable.v
theories/WktRoundtrip.v
theories/CopyCoordsModel.v
theories/CopyCoordsSpec.v
theories/CopyCoordsProofs.v
theories/GeomBuildModel.v
theories/GeomBuildSpec.v
theories/GeomBuildProofs.v
theories/GeomBuildRoll.v
theories/GeomCopyProofs.v
theories/GeomBuildSafety.v
theories/GeomRefuted.v
theories/BitmapModel.v
theories/BitmapSpec.v
theories/BitmapProofs.v
theories/ArrowModel.v
theories/FloatModel.v
theories/ArrayViewModel.v
theories/FloatSpec.v
theories/FloatFacts.v
theories/NativeSpec.v
theories/NativeProofs.v
theories/NativeVisitProofs.v
theories/NativeShapeProofs.v
theories/BuilderModel.v
theories/NativeWriterModel.v
theories/BuilderFacts.v
theories/BuilderCoords.v
theories/BuilderAppend.v
theories/BuilderSpec.v
theories/BuilderFinish.v
theories/BuilderRun.v
theories/BuilderProofs.v
theories/NativeWriterSpec.v
theories/NativeWriterFacts.v
theories/NativeWriterAppend.v
theories/NativeWriterGeom.v
theories/NativeWriterArray.v
theories/NativeWriterFinish.v
theories/NativeWriterRun.v
theories/NativeWriterProofs.v
theories/NativeWriterHistory.v
theories/NativeWriterOverflow.v
theories/NativeVisitorSpec.v
theories/NativeVisitorProofs.v
theories/NativeVisitorLines.v
theories/NativeVisitorPoints.v
theories/NativeVisitorSeqs.v
theories/NativeVisitorPolygons.v
theories/NativeVisitorMultipolygons.v
theories/NativeVisitorHistory.v
theories/NativeRoundTripSpec.v
theories/NativeRoundTrip.v
theories/ArrayReaderModel.v
theories/SerialSpec.v
theories/ArrayReaderProofs.v
theories/KernelModel.v
theories/KernelSpec.v
theories/KernelProofs.v
theories/KernelTypes.v
theories/KernelBox.v
theories/ConversionModel.v
theories/ConversionSpec.v
theories/ConversionProofs.v
theories/MetadataModel.v
theories/MetadataSpec.v
theories/MetadataProofs.v
theories/MetadataReading.v
theories/MetadataMeaning.v
theories/MetadataTotal.v
theories/MetadataWriting.v
theories/SchemaModel.v
theories/SchemaSpec.v
theories/SchemaMetadata.v
theories/SchemaProofs.v
theories/SchemaRecognised.v
theories/SchemaViews.v
theories/CppCoordModel.v
theories/CppWkbModel.v
theories/CppWkbSpec.v
theories/CppWkbTells.v
theories/CppWkbProofs.v
theories/CppWkbReads.v
theories/CppWkbAccepts.v
theories/CppWkbPrefix.v
theories/CppWkbVisit.v
theories/CppWkbWitness.v
theories/CppArrayModel.v
theories/CppArraySpec.v
theories/CppArrayProofs.v
theories/CppArrayInit.v
theories/CppArrayMore.v
theories/CppWkbArrayProofs.v
theories/RyuTables.v
theories/RyuModel.v
theories/RyuSpec.v
theories/RyuCertificates.v
theories/RyuShortest.v
theories/RyuScaled.v
theories/RyuDecimal.v
theories/RyuDigits.v
theories/RyuFixed.v
theories/RyuPrint.v
theories/RyuDouble.v
theories/RyuReads.v
theories/PrintFallback.v
theories/PrintRoundtrip.v
theories/MetadataReread.v
theories/KernelStartModel.v
theories/KernelStartSpec.v
theories/KernelStartProofs.v
theories/CppDataTypeModel.v
theories/CppDataTypeSpec.v
theories/CppDataTypeProofs.v
theories/FastFloatTables.v
theories/FastFloatCertificates.v
theories/FastFloatModel.v
theories/FastFloatSpec.v
theories/FastFloatRound.v
theories/FastFloatScaled.v
theories/FastFloatCompute.v
theories/FastFloatCompare.v
theories/FastFloatHalfway.v
theories/FastFloatDigits.v
theories/FastFloatMantissa.v
theories/FastFloatNumbers.v
theories/FastFloatReads.v
theories/FastFloatWords.v
theories/FastFloatNearest.v
theories/StdParseModel.v
theories/StdParseSpec.v
theories/StdParseProofs.v
theories/CppWriterModel.v
theories/CppWriterSpec.v
theories/CppWriterProofs.v
theories/CppReaderModel.v
theories/CppReaderSpec.v
theories/CppReaderProofs.v
theories/CppDispatchModel.v
theories/CppDispatchProofs.v
theories/OwnedModel.v
theories/OwnedSpec.v
theories/OwnedProofs.v
theories/AllocModel.v
theories/AllocSpec.v
theories/AllocProofs.v
theories/WktErrorModel.v
theories/WktErrorSpec.v
theories/WktErrorProofs.v
theories/WktErrorTagged.v
theories/WktErrorVisit.v
theories/WktErrorLink.v
theories/WktErrorMessages.v
theories/ArrowExtModel.v
theories/ArrowExtSpec.v
theories/ArrowExtProofs.v
theories/WkbErrorModel.v
theories/WkbErrorSpec.v
theories/WkbErrorProofs.v
theories/WkbErrorPlace.v
theories/MetadataErrorModel.v
theories/MetadataErrorSpec.v
theories/MetadataErrorProofs.v
theories/NativeOfferModel.v
theories/NativeOfferSpec.v
theories/NativeOfferProofs.v
theories/SchemaErrorModel.v
theories/SchemaErrorSpec.v
theories/SchemaErrorProofs.v
theories/SchemaErrorRefused.v
theories/ArrayViewErrorModel.v
theories/ArrayViewErrorSpec.v
theories/ArrayViewErrorProofs.v
theories/GeomUnset.v
theories/TruncatedSpec.v
theories/GeomTruncated.v
theories/GeomErrorModel.v
theories/GeomErrorSpec.v
theories/GeomErrorProofs.v
theories/KernelErrorModel.v
theories/KernelErrorSpec.v
theories/KernelErrorProofs.v
theories/VisitorErrorModel.v
theories/VisitorErrorSpec.v
theories/VisitorErrorProofs.v
theories/CppErrorModel.v
theories/CppErrorSpec.v
theories/CppErrorProofs.v
theories/CppErrorWhere.v
theories/CppTypeErrorModel.v
theories/CppTypeErrorSpec.v
theories/CppTypeErrorProofs.v
theories/PropertiesTypes.v
theories/PropertiesWkbReader.v
theories/PropertiesVisit.v
theories/PropertiesWkbWriter.v
theories/PropertiesWktWriter.v
theories/PropertiesWktReader.v
theories/PropertiesGeometry.v
theories/PropertiesArrays.v
theories/PropertiesBuilder.v
theories/PropertiesNativeWriter.v
theories/PropertiesKernel.v
theories/PropertiesConversion.v
theories/PropertiesMetadata.v
theories/PropertiesSchema.v
theories/PropertiesCppWkb.v
theories/PropertiesCppArrays.v
theories/PropertiesPrint.v
theories/PropertiesStart.v
theories/PropertiesDataType.v
theories/PropertiesFastFloat.v
theories/PropertiesStdParse.v
theories/PropertiesCppWriter.v
theories/PropertiesCppReader.v
theories/PropertiesCppDispatch.v
theories/PropertiesOwned.v
theories/PropertiesAlloc.v
theories/PropertiesWktError.v
theories/PropertiesArrowExt.v
theories/PropertiesWkbError.v
theories/PropertiesMetadataError.v
theories/PropertiesNativeOffer.v
theories/PropertiesSchemaError.v
theories/PropertiesArrayViewError.v
theories/PropertiesTruncated.v
theories/PropertiesGeomError.v
theories/PropertiesKernelError.v
theories/PropertiesVisitorError.v
theories/PropertiesCppError.v
theories/PropertiesCppTypeError.v
