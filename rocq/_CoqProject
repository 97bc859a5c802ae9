-Q theories Verif
theories/Str.v
theories/StrFacts.v
theories/EscapeModel.v
theories/EscapeSpec.v
theories/EscapeProofs.v
theories/EscapeProperties.v
theories/WriterModel.v
theories/WriterSpec.v
theories/WriterProofs.v
theories/WriterProperties.v
theories/XmlParser.v
theories/XmlSpec.v
theories/XmlProofs.v
theories/XmlTree.v
theories/XmlTreeProofs.v
theories/XmlProperties.v
theories/TypesModel.v
theories/TypesSpec.v
theories/TypesProofs.v
theories/TypesProperties.v
theories/ListFacts.v
theories/IdsModel.v
theories/IdsSpec.v
theories/IdsProofs.v
theories/IdsProperties.v
theories/UnitsModel.v
theories/UnitsProofs.v
theories/UnitsProperties.v
theories/ZipNameModel.v
theories/ZipNameSpec.v
theories/ZipNameProofs.v
theories/ZipNameProperties.v
theories/StrFind.v
theories/StrFindFacts.v
theories/FlatXmlModel.v
theories/FlatXmlSpec.v
theories/FlatXmlProofs.v
theories/FlatXmlProperties.v
theories/MediaModel.v
theories/MediaSpec.v
theories/MediaProofs.v
theories/MediaProperties.v
theories/Props.v
theories/Ast.v
theories/Pass.v
theories/PassFacts.v
theories/ParaIdModel.v
theories/ParaIdSpec.v
theories/ParaIdProofs.v
theories/ParaIdProperties.v
theories/TreeModel.v
theories/TreeSpec.v
theories/TreeProofs.v
theories/TreeProperties.v
theories/DepsModel.v
theories/DepsSpec.v
theories/DepsProofs.v
theories/DepsProperties.v
theories/InstrModel.v
theories/InstrSpec.v
theories/InstrProofs.v
theories/InstrProperties.v
theories/TocModel.v
theories/TocSpec.v
theories/TocProofs.v
theories/TocProperties.v
theories/PackModel.v
theories/PackSpec.v
theories/PackProofs.v
theories/PackRelsProofs.v
theories/PackTypesProofs.v
theories/PackOrderProofs.v
theories/PrepareModel.v
theories/PrepareProofs.v
theories/PackFinalProofs.v
theories/NumberingModel.v
theories/NumberingSpec.v
theories/NumberingProofs.v
theories/PackProperties.v
theories/NumberingProperties.v
theories/PackKeysProofs.v
theories/BuildModel.v
theories/BuildSpec.v
theories/BuildProofs.v
theories/BuildIdsProofs.v
theories/VocabSpec.v
theories/VocabProofs.v
theories/CellProofs.v
theories/MarkProofs.v
theories/BuildPartProofs.v
theories/BuildProperties.v
theories/FloatModel.v
theories/FloatProofs.v
theories/PropsSet.v
theories/ReadBase.v
theories/ReadProps.v
theories/ReadModel.v
theories/ReadProg.v
theories/ReadProofs.v
theories/ReadPartProofs.v
theories/ReadSpec.v
theories/ReadCalm.v
theories/ReadTextProofs.v
theories/ReadProperties.v
theories/RoundSpec.v
theories/RoundBase.v
theories/RoundNums.v
theories/RoundRpr.v
theories/RoundSect.v
theories/RoundPpr.v
theories/RoundTable.v
theories/RoundPic.v
theories/RoundRun.v
theories/RoundLoops.v
theories/RoundKids.v
theories/RoundTree.v
theories/RoundParts.v
theories/WellSpec.v
theories/WellProofs.v
theories/WellPartProofs.v
theories/SetterModel.v
theories/SetterSpec.v
theories/WellProperties.v
theories/SurviveSpec.v
theories/SurviveProofs.v
theories/RoundProperties.v
theories/RoundTextProofs.v
theories/StyleModel.v
theories/StyleRead.v
theories/StyleSpec.v
theories/RoundStyle.v
theories/StyleProg.v
theories/WellStyle.v
theories/StyleOut.v
theories/StyleSurvive.v
theories/StyleProperties.v
theories/RenderModel.v
theories/RenderSpec.v
theories/RenderSame.v
theories/RenderProofs.v
theories/RenderProperties.v
theories/PathModel.v
theories/OpenModel.v
theories/OpenText.v
theories/OpenPath.v
theories/RestSpec.v
theories/WellRest.v
theories/OpenCalls.v
theories/OpenParts.v
theories/OpenRels.v
theories/OpenFiles.v
theories/OpenSides.v
theories/OpenAssign.v
theories/OpenSpec.v
theories/OpenProofs.v
theories/OpenNames.v
theories/OpenFinal.v
theories/OpenImages.v
theories/OpenTexts.v
theories/OpenProperties.v
theories/ArchiveSpec.v
theories/ArchiveProofs.v
theories/ArchiveReads.v
theories/ArchiveReturns.v
theories/ArchiveProperties.v
theories/WholeSpec.v
theories/WholeProofs.v
theories/WholeProperties.v
theories/ItemModel.v
theories/ItemSpec.v
theories/ItemProofs.v
theories/ItemArchive.v
theories/ItemProperties.v
theories/ArchiveOptional.v
theories/ExtProperties.v
theories/MetaModel.v
theories/MetaSpec.v
theories/MetaProofs.v
theories/MetaProperties.v
theories/GivesSpec.v
theories/GivesProofs.v
theories/GivesArchive.v
theories/MediaBytes.v
theories/ResaveSpec.v
theories/ResaveProofs.v
theories/ResaveProperties.v
theories/WebSpec.v
theories/WebProofs.v
theories/WebProperties.v
theories/TargetSpec.v
theories/TargetProofs.v
theories/TargetOpens.v
theories/TargetProperties.v
theories/CycleSpec.v
theories/CycleProofs.v
theories/CycleTree.v
theories/CycleGrow.v
theories/CycleFinal.v
theories/CycleProperties.v
theories/JsonModel.v
theories/JsonSpec.v
theories/JsonText.v
theories/JsonProofs.v
theories/JsonTexts.v
theories/JsonProperties.v
theories/TsSpec.v
theories/TsProofs.v
theories/TsProperties.v
theories/CallModel.v
theories/CallSpec.v
theories/CallProofs.v
theories/CallProperties.v
theories/TellSpec.v
theories/TellProofs.v
theories/TellPlaces.v
theories/TellProperties.v
theories/SheetModel.v
theories/SheetSpec.v
theories/SheetProofs.v
theories/SheetProperties.v
theories/EntryModel.v
theories/EntrySpec.v
theories/EntryProofs.v
theories/EntryProperties.v
theories/ValueModel.v
theories/ValueSpec.v
theories/ValueProofs.v
theories/ValueProperties.v
theories/PresetModel.v
theories/PresetSpec.v
theories/PresetProperties.v
theories/GleanModel.v
theories/GleanSpec.v
theories/GleanProofs.v
theories/GleanProperties.v
theories/ShapeModel.v
theories/ShapeSpec.v
theories/ShapeProofs.v
theories/ShapeProperties.v
