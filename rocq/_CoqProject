-Q theories Verif
theories/Base.v
theories/CollectionModel.v
theories/CollectionSpec.v
theories/CollectionProofs.v
theories/CollectionExamples.v
theories/PropertiesCollection.v
theories/CollectionHeap.v
theories/CollectionHeapProofs.v
theories/PropertiesCollectionHeap.v
theories/PyStr.v
theories/WosModel.v
theories/WosProofs.v
theories/PropertiesWos.v
theories/Nx.v
theories/NxFacts.v
theories/PyInt.v
theories/GraphHelpersModel.v
theories/GraphHelpersSpec.v
theories/GraphHelpersProofs.v
theories/GraphHelpersProofs2.v
theories/PropertiesGraph.v
theories/CsvModel.v
theories/GraphFileModel.v
theories/CsvProofs.v
theories/GraphFileProofs.v
theories/PropertiesGraphFile.v
theories/RecordView.v
theories/SeriesModel.v
theories/SeriesSpec.v
theories/RecordViewFacts.v
theories/SeriesProofs.v
theories/PropertiesSeries.v
theories/NetModel.v
theories/NetSpec.v
theories/NetFacts.v
theories/NetProofs.v
theories/NetProofs2.v
theories/PropertiesNet.v
theories/CiteNetModel.v
theories/CiteNetFacts.v
theories/CiteNetSpec.v
theories/CiteNetProofs.v
theories/CiteNetProofs2.v
theories/CiteNetProofs3.v
theories/CiteNetProofs4.v
theories/CouplingProofs.v
theories/PropertiesCite.v
theories/TagNames.v
theories/RecordModel.v
theories/RecordProofs.v
theories/PropertiesRecord.v
theories/Regex.v
theories/CitationModel.v
theories/DecFacts.v
theories/RegexFacts.v
theories/Span.v
theories/CitationSpec.v
theories/CitationProofs.v
theories/JournalModel.v
theories/CitationProofs2.v
theories/JournalSpec.v
theories/JournalProofs.v
theories/PropertiesCitation.v
theories/PropertiesJournal.v
theories/DiffusionModel.v
theories/DiffusionSpec.v
theories/DiffusionProofs.v
theories/DiffusionProofs2.v
theories/DiffusionProofs3.v
theories/PropertiesDiffusion.v
theories/AnalysisModel.v
theories/AnalysisSpec.v
theories/AnalysisProofs.v
theories/AnalysisProofs2.v
theories/AnalysisProofs3.v
theories/PropertiesAnalysis.v
theories/TextModel.v
theories/TextSpec.v
theories/TextProofs.v
theories/PropertiesText.v
theories/RegexLang.v
theories/MedlineModel.v
theories/MedlineSpec.v
theories/MedlineProofs.v
theories/MedlineProofs2.v
theories/PropertiesMedline.v
theories/ScopusModel.v
theories/ScopusSpec.v
theories/ScopusProofs.v
theories/ScopusSpec2.v
theories/ScopusProofs2.v
theories/PropertiesScopus.v
theories/ProQuestModel.v
theories/ProQuestSpec.v
theories/ProQuestProofs.v
theories/PropertiesProQuest.v
theories/CacheModel.v
theories/CacheSpec.v
theories/CacheProofs.v
theories/CacheProofs2.v
theories/CacheProofs3.v
theories/PropertiesCache.v
theories/GrantModel.v
theories/GrantSpec.v
theories/GrantProofs.v
theories/GrantProofs2.v
theories/GrantProofs3.v
theories/PropertiesGrant.v
theories/CiteTableModel.v
theories/CiteTableSpec.v
theories/CiteTableProofs.v
theories/PropertiesCiteTable.v
theories/NlpModel.v
theories/NlpSpec.v
theories/NlpProofs.v
theories/NlpProofs2.v
theories/PropertiesNlp.v
theories/WriteCsvModel.v
theories/WriteCsvSpec.v
theories/WriteCsvProofs.v
theories/WriteCsvProofs2.v
theories/PropertiesWriteCsv.v
theories/BibModel.v
theories/BibProofs.v
theories/PropertiesBib.v
theories/ValuesModel.v
theories/ValuesProofs.v
theories/PropertiesValues.v
theories/FileModel.v
theories/FileProofs.v
theories/PropertiesFile.v
theories/ProgressModel.v
theories/ProgressSpec.v
theories/ProgressProofs.v
theories/ProgressProofs2.v
theories/PropertiesProgress.v
theories/KeyNetModel.v
theories/KeyNetFacts.v
theories/KeyNetSpec.v
theories/PropertiesKeyNet.v
theories/AttrNetModel.v
theories/AttrNetSpec.v
theories/PropertiesAttrNet.v
theories/ExpandModel.v
theories/ExpandProofs.v
theories/PropertiesExpand.v
theories/ExpandSpec.v
theories/NotebookModel.v
theories/NotebookSpec.v
theories/NotebookProofs.v
theories/PropertiesNotebook.v
theories/GrantFileModel.v
theories/GrantFileSpec.v
theories/GrantFileProofs.v
theories/PropertiesGrantFile.v
theories/CliModel.v
theories/CliSpec.v
theories/CliProofs.v
theories/PropertiesCli.v
theories/RegexSem.v
theories/ScopusCiteSpec.v
theories/ScopusCiteProofs.v
theories/PropertiesScopusCite.v
theories/GlimpseModel.v
theories/GlimpseSpec.v
theories/GlimpseProofs.v
theories/PropertiesGlimpse.v
theories/DropModel.v
theories/PropertiesDrop.v
theories/BytesModel.v
theories/PropertiesBytes.v
theories/DirModel.v
theories/DirSpec.v
theories/PropertiesDir.v
theories/CopyModel.v
theories/CopySpec.v
theories/CopyProofs.v
theories/PropertiesCopy.v
theories/StatsModel.v
theories/StatsSpec.v
theories/StatsProofs.v
theories/PropertiesStats.v
theories/GrantDirModel.v
theories/GrantDirSpec.v
theories/GrantDirProofs.v
theories/PropertiesGrantDir.v
theories/TableFileModel.v
theories/TableFileProofs.v
theories/PropertiesTableFile.v
theories/GraphSaveModel.v
theories/GraphSaveProofs.v
theories/PropertiesGraphSave.v
theories/DiffusionTableModel.v
theories/DiffusionTableProofs.v
theories/PropertiesDiffusionTable.v
theories/PropertiesDiffusionAdd.v
theories/TnetModel.v
theories/TnetSpec.v
theories/PropertiesTnet.v
theories/WosNetModel.v
theories/WosNetSpec.v
theories/WosNetProofs.v
theories/PropertiesWosNet.v
theories/CiteProfileModel.v
theories/CiteProfileSpec.v
theories/CiteProfileProofs.v
theories/PropertiesCiteProfile.v
theories/JournalOptModel.v
theories/JournalOptSpec.v
theories/PropertiesJournalOpt.v
theories/WriteFileModel.v
theories/WriteFileSpec.v
theories/WriteFileProofs.v
theories/PropertiesWriteFile.v
theories/CsvDialectModel.v
theories/CsvDialectProofs.v
theories/PropertiesCsvDialect.v
theories/RecordMapModel.v
theories/RecordMapSpec.v
theories/PropertiesRecordMap.v
theories/WosTagsModel.v
theories/WosTagsSpec.v
theories/WosTagsProofs.v
theories/PropertiesWosTags.v
theories/MixedModel.v
theories/MixedSpec.v
theories/MixedProofs.v
theories/PropertiesMixed.v
theories/AuthorsModel.v
theories/AuthorsSpec.v
theories/PropertiesAuthors.v
theories/MixedNetModel.v
theories/MixedNetSpec.v
theories/MixedNetProofs.v
theories/PropertiesMixedNet.v
theories/RereadSpec.v
theories/RereadProofs.v
theories/PropertiesReread.v
theories/YearsModel.v
theories/YearsSpec.v
theories/YearsProofs.v
theories/PropertiesYears.v
theories/NamesModel.v
theories/NamesSpec.v
theories/NamesProofs.v
theories/PropertiesNames.v
theories/PropertiesCite2.v
theories/IdentityModel.v
theories/IdentitySpec.v
theories/IdentityProofs.v
theories/PropertiesIdentity.v
theories/PropertiesGrantMore.v
theories/PropertiesMoreText.v
theories/PropertiesMoreNet.v
theories/ScopusSelfModel.v
theories/PropertiesScopusSelf.v
theories/PropertiesMoreFiles.v
theories/PropertiesMoreYears.v
theories/PropertiesMoreWosNet.v
theories/PropertiesMedlineText.v
theories/PropertiesMoreMixedNet.v
theories/PropertiesIdentityMore.v
theories/PropertiesJournalsNet.v
theories/PropertiesMixedCoupling.v
theories/MixedCiteModel.v
theories/PropertiesMixedCite.v
theories/MixedRpysModel.v
theories/PropertiesMixedRpys.v
theories/GenderModel.v
theories/PropertiesGenders.v
theories/PropertiesMixedFilter.v
theories/ShowModel.v
theories/PropertiesShow.v
theories/MixedDropModel.v
theories/PropertiesMixedDrop.v
theories/MixedTableModel.v
theories/PropertiesMixedTable.v
theories/MixedDictModel.v
theories/PropertiesMixedDict.v
theories/MixedMultiModel.v
theories/PropertiesMixedMulti.v
theories/CiteShowModel.v
theories/PropertiesCiteShow.v
theories/PropertiesMixedBad.v
theories/PropertiesMixedParts.v
theories/MixedGlimpseModel.v
theories/PropertiesMixedGlimpse.v
