-Q theories Verif
theories/Base.v
theories/BaseFacts.v
theories/CommonModel.v
theories/CommonProofs.v
theories/SpecCommon.v
theories/CommonProofs2.v
theories/PropsCommon.v
theories/RecordsModel.v
theories/SpecRecords.v
theories/RecordsProofs.v
theories/RecordsProofs2.v
theories/Action14Model.v
theories/SpecAction14.v
theories/Action14Proofs.v
theories/EncodableProofs.v
theories/PropsRecords.v
theories/VA2Model.v
theories/SpecVA2.v
theories/VA2Proofs.v
theories/VA2Compile.v
theories/VA2Switch.v
theories/VA2Simplify.v
theories/VA2DecodeModel.v
theories/SpecVA2Decode.v
theories/VA2Decode.v
theories/VA2Total.v
theories/VA2Vars.v
theories/PropsVA2.v
theories/Action2Model.v
theories/SpecAction2.v
theories/Action2Proofs.v
theories/PropsAction2.v
theories/SpecLayout.v
theories/LayoutProofs.v
theories/PropsLayout.v
theories/RefsModel.v
theories/SpecRefs.v
theories/RefsProofs.v
theories/RefsProofs2.v
theories/RefsProofs3.v
theories/RefsTotal.v
theories/PropsRefs.v
theories/SchedModel.v
theories/SpecSched.v
theories/SchedProofs.v
theories/SchedProofs2.v
theories/PropsSched.v
theories/ContainerModel.v
theories/SpecContainer.v
theories/ContainerProofs.v
theories/ContainerTotal.v
theories/PropsContainer.v
theories/IdMapModel.v
theories/SpecIdMap.v
theories/IdMapProofs.v
theories/IdMapProofs2.v
theories/IdMapProofs3.v
theories/PropsIdMap.v
theories/CacheModel.v
theories/SpecCache.v
theories/CacheProofs.v
theories/PropsCache.v
theories/GenModel.v
theories/SpecGen.v
theories/GenProofs.v
theories/PropsGen.v
theories/StringsModel.v
theories/SpecStrings.v
theories/StringsProofs.v
theories/PropsStrings.v
theories/WriteModel.v
theories/PropsWrite.v
theories/PropModel.v
theories/Action0Model.v
theories/SpecProp.v
theories/PropProofs.v
theories/Action0Proofs.v
theories/PropAccept.v
theories/PropsProp.v
theories/LibModel.v
theories/SpecLib.v
theories/LibProofs.v
theories/OrderProofs.v
theories/PropsLib.v
theories/RailtypeModel.v
theories/SpecRail.v
theories/RailProofs.v
theories/PropsRail.v
theories/DecodeModel.v
theories/SpecDecode.v
theories/DecodeProofs.v
theories/ChunkProofs.v
theories/SheetProofs.v
theories/PropsDecode.v
theories/SpriteModel.v
theories/SpecSprite.v
theories/SpriteProofs.v
theories/RealProofs.v
theories/PropsSprite.v
theories/CallbackModel.v
theories/SpecCallback.v
theories/CallbackProofs.v
theories/CallbackProofs2.v
theories/PropsCallback.v
theories/ParserModel.v
theories/SpecParser.v
theories/LexProofs.v
theories/ParserProofs.v
theories/RegroupProofs.v
theories/MeaningProofs.v
theories/PropsParser.v
theories/JsonModel.v
theories/JsonProofs.v
theories/PaletteData.v
theories/TreeModel.v
theories/SpecTree.v
theories/TreeProofs.v
theories/PropsTree.v
theories/SpecLayers.v
theories/LayerProofs.v
theories/PaletteProofs.v
theories/PropsLayers.v
theories/IndustryModel.v
theories/VehicleModel.v
theories/SpecVehicle.v
theories/VehicleProofs.v
theories/VehicleProofs2.v
theories/VehicleProofs3.v
theories/VehicleProofs4.v
theories/PropsVehicle.v
theories/PropsVehicle2.v
theories/PropsVehicle3.v
theories/SpecIndustry.v
theories/IndustryProofs.v
theories/IndustryProofs2.v
theories/PropsIndustry.v
theories/HeaderModel.v
theories/SpecHeader.v
theories/HeaderProofs.v
theories/PropsHeader.v
theories/VoxModel.v
theories/SpecVox.v
theories/VoxProofs.v
theories/VoxProofs2.v
theories/VoxProofs3.v
theories/VoxProofs4.v
theories/VoxProofs5.v
theories/PropsVox.v
theories/UtilsModel.v
theories/SpecUtils.v
theories/UtilsProofs.v
theories/PropsUtils.v
theories/PreviewModel.v
theories/SpecPreview.v
theories/PreviewProofs.v
theories/GifProofs.v
theories/PropsPreview.v
theories/GenPyModel.v
theories/SpecGenPy.v
theories/FlatRefsProofs.v
theories/GenPyProofs.v
theories/PropsGenPy.v
theories/PyValue.v
theories/SpecPython.v
theories/PyTextModel.v
theories/SpecPyText.v
theories/PyCtorModel.v
theories/PyReadProofs.v
theories/PyMonoProofs.v
theories/PyIndentProofs.v
theories/PyStripProofs.v
theories/PyPartsProofs.v
theories/PyCleanProofs.v
theories/PyStmtProofs.v
theories/PyTextProofs.v
theories/LexNormProofs.v
theories/PyBackProofs.v
theories/PyNamesProofs.v
theories/PyDecodeProofs.v
theories/PrettyModel.v
theories/PrettyProofs.v
theories/PropsPyText.v
theories/ZoomDebugModel.v
theories/SpecZoomDebug.v
theories/ZoomDebugProofs.v
theories/PropsZoomDebug.v
theories/AnnounceModel.v
theories/SpecAnnounce.v
theories/AnnounceProofs.v
theories/PropsAnnounce.v
theories/ExtractModel.v
theories/SpecExtract.v
theories/ExtractProofs.v
theories/ExtractProofs2.v
theories/ExtractProofs3.v
theories/PropsExtract.v
theories/PyGraphicsModel.v
theories/SpecProgram.v
theories/PyGraphicsProofs.v
theories/PropsPyGraphics.v
theories/DecompileModel.v
theories/SpecDecompile.v
theories/DecompileProofs.v
theories/PropsDecompile.v
theories/TableModel.v
theories/SpecTable.v
theories/TableProofs.v
theories/PropsTable.v
theories/SpriteSheetProofs.v
theories/PropsSheet.v
theories/SettingsModel.v
theories/SpecSettings.v
theories/PropsSettings.v
theories/EqModel.v
theories/SpecEq.v
theories/EqProofs.v
theories/PropsEq.v
theories/VisualModel.v
theories/PropsVisual.v
theories/TranslationModel.v
theories/PropsTranslation.v
theories/PrepareModel.v
theories/PropsPrepare.v
theories/ReportModel.v
theories/PropsReport.v
theories/NearestModel.v
theories/PropsNearest.v
theories/DumpModel.v
theories/PropsDump.v
theories/SizeModel.v
theories/PropsSize.v
theories/FeatureModel.v
theories/PropsFeature.v
