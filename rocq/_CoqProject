-Q theories Verif
theories/Base.v
theories/Unicode.v
theories/Regex.v
theories/Utf8.v
theories/Json.v
theories/PathModel.v
theories/ObjectUtilsModel.v
theories/DigestModel.v
theories/LayoutModel.v
theories/LayoutSpec.v
theories/ObjectUtilsProofs.v
theories/LayoutProofs.v
theories/Properties_Names.v
theories/Properties_Layout.v
theories/DatetimeModel.v
theories/DatetimeSpec.v
theories/DatetimeProofs.v
theories/Properties_Datetime.v
theories/PyJson.v
theories/Log.v
theories/LogProofs.v
theories/ValidationCodes.v
theories/InventoryValidatorModel.v
theories/InventorySpec.v
theories/InventoryValidatorProofs.v
theories/InventoryRulesProofs.v
theories/InventoryPriorProofs.v
theories/InventoryReadingProofs.v
theories/InventorySafeProofs.v
theories/Properties_InventoryValidator.v
theories/InventoryModel.v
theories/InventoryAccessModel.v
theories/NewVersionModel.v
theories/InventoryOpsSpec.v
theories/InventoryOpsProofs.v
theories/NewVersionProofs.v
theories/VersionNumberProofs.v
theories/InventoryParseProofs.v
theories/NewVersionOpsProofs.v
theories/ContentPathProofs.v
theories/ParseModel.v
theories/ParseProofs.v
theories/Properties_Inventory.v
theories/JsonTextModel.v
theories/JsonTextSpec.v
theories/JsonTextProofs.v
theories/TextFile.v
theories/JsonFileProofs.v
theories/Properties_Json.v
theories/FsModel.v
theories/FsSpec.v
theories/FsProofs.v
theories/FswModel.v
theories/FswSpec.v
theories/FswProofs.v
theories/FswCopyProofs.v
theories/Properties_Fsw.v
theories/NamasteModel.v
theories/NamasteSpec.v
theories/NamasteProofs.v
theories/Properties_Namaste.v
theories/LoggerModel.v
theories/Properties_Logger.v
theories/ValidatorModel.v
theories/ValidatorSpec.v
theories/ValidatorBasicProofs.v
theories/ValidatorVersionProofs.v
theories/ValidatorFoldProofs.v
theories/ValidatorContentProofs.v
theories/ValidatorIntactProofs.v
theories/ValidatorDigestsOffProofs.v
theories/Properties_Validator.v
theories/ObjectModel.v
theories/ObjectSpec.v
theories/FsStepProofs.v
theories/ObjectCopyProofs.v
theories/ObjectWriteProofs.v
theories/ObjectInvProofs.v
theories/ObjectRulesProofs.v
theories/ObjectParseProofs.v
theories/ObjectAddProofs.v
theories/ContentNameProofs.v
theories/ObjectGrowProofs.v
theories/ObjectStartProofs.v
theories/ObjectSourceProofs.v
theories/ObjectFactsProofs.v
theories/ObjectMadeProofs.v
theories/ObjectIntactProofs.v
theories/ObjectExtendProofs.v
theories/ObjectStoreProofs.v
theories/ObjectCreateProofs.v
theories/ObjectUpdateProofs.v
theories/ObjectNextProofs.v
theories/ObjectDigestProofs.v
theories/ObjectVersionProofs.v
theories/ObjectExtractProofs.v
theories/ObjectTrackProofs.v
theories/BuildProofs.v
theories/MetaSpec.v
theories/MetaProofs.v
theories/ObjectHistoryProofs.v
theories/ObjectExamples.v
theories/Properties_Object.v
theories/Properties_ObjectFindings.v
theories/UpdateSpec.v
theories/OpenProofs.v
theories/ChangeProofs.v
theories/FrameProofs.v
theories/UpdateProofs.v
theories/Properties_Update.v
theories/ExtractSpec.v
theories/ExtractProofs.v
theories/Properties_Extract.v
theories/Properties_Build.v
theories/StorageRootModel.v
theories/StorageRootSpec.v
theories/StorageRootProofs.v
theories/StorageRootRunProofs.v
theories/Properties_StorageRoot.v
theories/InventoryExceptionProofs.v
theories/Properties_RootList.v
theories/RootInitSpec.v
theories/RootInitProofs.v
theories/Properties_RootInit.v
theories/CopyFrameProofs.v
theories/RootAddSpec.v
theories/RootAddProofs.v
theories/Properties_RootAdd.v
theories/RootFillProofs.v
theories/Properties_RootFill.v
theories/IntactCopyProofs.v
theories/Properties_RootValid.v
theories/Properties_RootObject.v
theories/BaggerModel.v
theories/Properties_Bagger.v
theories/Properties_Sidecar.v
theories/ToolModel.v
theories/Properties_Tools.v
theories/Properties_RoundTrip.v
theories/Properties_Metadata.v
theories/Properties_Accessors.v
theories/Properties_Codes.v
theories/WarningSpec.v
theories/WarningProofs.v
theories/WarningFullProofs.v
theories/Properties_Warnings.v
theories/LaxSpec.v
theories/LaxProofs.v
theories/Properties_Lax.v
theories/Properties_BagRoundTrip.v
theories/RaisesSpec.v
theories/RaisesProofs.v
theories/Properties_Raises.v
theories/UtilModel.v
theories/Properties_Utils.v
theories/OtherSpec.v
theories/ObjectOtherProofs.v
theories/ObjectForeignProofs.v
theories/Properties_Other.v
theories/TreeModel.v
theories/TreeSpec.v
theories/TreeProofs.v
theories/Properties_Tree.v
theories/RootToolModel.v
theories/RootToolSpec.v
theories/Properties_RootTool.v
theories/ObjectToolModel.v
theories/ObjectToolSpec.v
theories/ObjectToolProofs.v
theories/Properties_ObjectTool.v
theories/SidecarToolModel.v
theories/Properties_SidecarTool.v
theories/RecoverProofs.v
theories/Properties_Recover.v
theories/Properties_Carry.v
theories/Properties_RootDigest.v
theories/Properties_LayoutFile.v
theories/Properties_LaxMore.v
theories/CompactModel.v
theories/Properties_Compact.v
theories/Properties_Message.v
theories/Properties_OpenFs.v
theories/Properties_ContentDir.v
theories/Properties_Declaration.v
theories/Properties_CompactSpace.v
theories/Properties_InventoryJson.v
theories/Properties_Opened.v
theories/JsonGrammarSpec.v
theories/JsonGrammarProofs.v
theories/JsonGrammarProofs2.v
theories/Properties_JsonRead.v
theories/Properties_LayoutExact.v
theories/Properties_Files.v
theories/S3UrlModel.v
theories/Properties_S3Url.v
theories/MaxErrorsModel.v
theories/Properties_MaxErrors.v
theories/StatusModel.v
theories/Properties_Status.v
