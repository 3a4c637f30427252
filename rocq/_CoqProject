-Q theories Verif

theories/Model/Args.v
theories/Model/Cli.v
theories/Model/Common.v
theories/Model/Dbml.v
theories/Model/Diff.v
theories/Model/DiffCore.v
theories/Model/DiffWriters.v
theories/Model/GoPath.v
theories/Model/GoString.v
theories/Model/Gorm.v
theories/Model/Graphql.v
theories/Model/Jpa.v
theories/Model/Json.v
theories/Model/JsonMerge.v
theories/Model/JsonText.v
theories/Model/Liquibase.v
theories/Model/MarkdownWriter.v
theories/Model/Messages.v
theories/Model/Mysql.v
theories/Model/NilColumns.v
theories/Model/NilValues.v
theories/Model/Octopus.v
theories/Model/Ojson.v
theories/Model/OjsonApi.v
theories/Model/OjsonText.v
theories/Model/Plantuml.v
theories/Model/Protobuf.v
theories/Model/Quickdbd.v
theories/Model/Sqlalchemy.v
theories/Model/Staruml.v
theories/Model/StarumlText.v
theories/Model/Strcase.v
theories/Model/Util.v
theories/Model/Xlsx.v
theories/Spec/AgreeSpec.v
theories/Spec/ArgsSpec.v
theories/Spec/BookSpec.v
theories/Spec/CliSpec.v
theories/Spec/CommonSpec.v
theories/Spec/CrashSpec.v
theories/Spec/CreatedSpec.v
theories/Spec/Database.v
theories/Spec/DbmlSpec.v
theories/Spec/DiagramSpec.v
theories/Spec/DiffSpec.v
theories/Spec/DriftSpec.v
theories/Spec/EndSpec.v
theories/Spec/ExtrasSpec.v
theories/Spec/FlywaySpec.v
theories/Spec/FormatSpec.v
theories/Spec/GormSpec.v
theories/Spec/GraphqlSpec.v
theories/Spec/GroupSpec.v
theories/Spec/InitSpec.v
theories/Spec/JsonGrammar.v
theories/Spec/JsonSpec.v
theories/Spec/KotlinSpec.v
theories/Spec/LiquibaseSpec.v
theories/Spec/LocalSpec.v
theories/Spec/LogReleaseSpec.v
theories/Spec/MappedGoSpec.v
theories/Spec/MappedKtSpec.v
theories/Spec/MappedPySpec.v
theories/Spec/MappedSpec.v
theories/Spec/MarkdownCalls.v
theories/Spec/MarkdownReading.v
theories/Spec/MarkdownSpec.v
theories/Spec/MattersSpec.v
theories/Spec/MergeSpec.v
theories/Spec/MessageSpec.v
theories/Spec/MultimapSpec.v
theories/Spec/MysqlGrammar.v
theories/Spec/MysqlImportSpec.v
theories/Spec/MysqlSpec.v
theories/Spec/NamesSpec.v
theories/Spec/NarrowDiff.v
theories/Spec/NilListSpec.v
theories/Spec/NilSpec.v
theories/Spec/NothingSpec.v
theories/Spec/OctopusSpec.v
theories/Spec/OjsonSpec.v
theories/Spec/OptionsSpec.v
theories/Spec/Order.v
theories/Spec/OrderSpec.v
theories/Spec/PlantumlSpec.v
theories/Spec/ProtobufSpec.v
theories/Spec/QuickdbdSpec.v
theories/Spec/Reading.v
theories/Spec/ReleaseSpec.v
theories/Spec/RemovedSpec.v
theories/Spec/RenameColumns.v
theories/Spec/RenameSpec.v
theories/Spec/ReverseSpec.v
theories/Spec/SafeSpec.v
theories/Spec/ServerSpec.v
theories/Spec/ShapeSpec.v
theories/Spec/SqlalchemySpec.v
theories/Spec/StabilitySpec.v
theories/Spec/StarDocSpec.v
theories/Spec/StarumlSpec.v
theories/Spec/StepSpec.v
theories/Spec/Text.v
theories/Spec/TraceSpec.v
theories/Spec/TripEndSpec.v
theories/Spec/TripSpec.v
theories/Spec/UnchangedSpec.v
theories/Spec/UtilRun.v
theories/Spec/UtilSpec.v
theories/Spec/V1ApiSpec.v
theories/Spec/V1Spec.v
theories/Spec/ValuesFilesSpec.v
theories/Spec/ValuesSpec.v
theories/Spec/WidenBook.v
theories/Spec/WidenDiff.v
theories/Spec/WidenKotlin.v
theories/Spec/WidenLog.v
theories/Spec/WidenPython.v
theories/Spec/WidenSources.v
theories/Spec/WidenSpec.v
theories/Spec/WireSpec.v
theories/Spec/WiringSpec.v
theories/Spec/WordsSpec.v
theories/Spec/XlsxDocSpec.v
theories/Spec/XlsxSpec.v
theories/Proofs/Agree.v
theories/Proofs/AgreeCases.v
theories/Proofs/ArgsCases.v
theories/Proofs/ArgsProofs.v
theories/Proofs/CliCases.v
theories/Proofs/CliFormat.v
theories/Proofs/CliGroups.v
theories/Proofs/CliImports.v
theories/Proofs/CliInit.v
theories/Proofs/CliLoad.v
theories/Proofs/CliOptions.v
theories/Proofs/CliWrites.v
theories/Proofs/CommonProofs.v
theories/Proofs/ComparedCases.v
theories/Proofs/ComparedProofs.v
theories/Proofs/Crashes.v
theories/Proofs/Created.v
theories/Proofs/CreatedCases.v
theories/Proofs/DatabaseProofs.v
theories/Proofs/DbmlProofs.v
theories/Proofs/DiagramCases.v
theories/Proofs/DiagramProofs.v
theories/Proofs/DiffCoreProofs.v
theories/Proofs/DiffFacts.v
theories/Proofs/DiffProofs.v
theories/Proofs/Drift.v
theories/Proofs/DriftCases.v
theories/Proofs/DriftFiles.v
theories/Proofs/EndCases.v
theories/Proofs/EndToEnd.v
theories/Proofs/ExtrasProofs.v
theories/Proofs/FlywayFacts.v
theories/Proofs/FlywayMigration.v
theories/Proofs/FlywayProofs.v
theories/Proofs/FlywayTable.v
theories/Proofs/FormatProofs.v
theories/Proofs/GormProofs.v
theories/Proofs/GormText.v
theories/Proofs/GraphqlProofs.v
theories/Proofs/JpaCases.v
theories/Proofs/JpaDescribed.v
theories/Proofs/JpaEntity.v
theories/Proofs/JpaFile.v
theories/Proofs/JpaMain.v
theories/Proofs/JpaNames.v
theories/Proofs/JpaProofs.v
theories/Proofs/JpaText.v
theories/Proofs/JsonGrammarProofs.v
theories/Proofs/JsonGrammarRead.v
theories/Proofs/JsonProofs.v
theories/Proofs/JsonTextProofs.v
theories/Proofs/KotlinProofs.v
theories/Proofs/LiquibaseFacts.v
theories/Proofs/LiquibaseProofs.v
theories/Proofs/LiquibaseWitnesses.v
theories/Proofs/ListLemmas.v
theories/Proofs/LocalCases.v
theories/Proofs/LocalProofs.v
theories/Proofs/LogReleaseCases.v
theories/Proofs/LogReleases.v
theories/Proofs/Mapped.v
theories/Proofs/MappedCases.v
theories/Proofs/MappedGo.v
theories/Proofs/MappedKt.v
theories/Proofs/MappedPy.v
theories/Proofs/MarkdownProofs.v
theories/Proofs/MarkdownWriterProofs.v
theories/Proofs/MattersCases.v
theories/Proofs/MattersProofs.v
theories/Proofs/MergeProofs.v
theories/Proofs/MergeTwice.v
theories/Proofs/MessageProofs.v
theories/Proofs/MigrationProofs.v
theories/Proofs/MultimapProofs.v
theories/Proofs/MysqlFacts.v
theories/Proofs/MysqlLex.v
theories/Proofs/MysqlRead.v
theories/Proofs/MysqlTables.v
theories/Proofs/MysqlTripCases.v
theories/Proofs/MysqlTripEnds.v
theories/Proofs/MysqlTripFiles.v
theories/Proofs/MysqlTrips.v
theories/Proofs/MysqlTypes.v
theories/Proofs/MysqlWitnesses.v
theories/Proofs/NamesCases.v
theories/Proofs/NamesProofs.v
theories/Proofs/NarrowDiffCases.v
theories/Proofs/NarrowDiffProofs.v
theories/Proofs/NilCases.v
theories/Proofs/NilListProofs.v
theories/Proofs/NilProofs.v
theories/Proofs/NilSaved.v
theories/Proofs/NothingProofs.v
theories/Proofs/OctopusProofs.v
theories/Proofs/OctopusWitnesses.v
theories/Proofs/OjsonProofs.v
theories/Proofs/OrderProofs.v
theories/Proofs/PlantumlProofs.v
theories/Proofs/ProtobufProofs.v
theories/Proofs/PythonProofs.v
theories/Proofs/QuickdbdProofs.v
theories/Proofs/Ranks.v
theories/Proofs/ReadUtf8.v
theories/Proofs/ReadingProofs.v
theories/Proofs/Releases.v
theories/Proofs/RemovedProofs.v
theories/Proofs/RenameCases.v
theories/Proofs/RenameColumnCases.v
theories/Proofs/RenameColumnProofs.v
theories/Proofs/RenameProofs.v
theories/Proofs/ReverseCases.v
theories/Proofs/ReverseProofs.v
theories/Proofs/SafeProofs.v
theories/Proofs/SchemaMigration.v
theories/Proofs/ServerCases.v
theories/Proofs/ServerProofs.v
theories/Proofs/ShapeFiles.v
theories/Proofs/Shapes.v
theories/Proofs/SqlalchemyMain.v
theories/Proofs/SqlalchemyNames.v
theories/Proofs/SqlalchemyProofs.v
theories/Proofs/SqlalchemyText.v
theories/Proofs/StabilityProofs.v
theories/Proofs/StarDocProofs.v
theories/Proofs/StarumlProofs.v
theories/Proofs/StepCases.v
theories/Proofs/Steps.v
theories/Proofs/StrcaseProofs.v
theories/Proofs/StringLemmas.v
theories/Proofs/Trace.v
theories/Proofs/TraceCases.v
theories/Proofs/TraceLog.v
theories/Proofs/TraceReport.v
theories/Proofs/TraceSchema.v
theories/Proofs/TypeProofs.v
theories/Proofs/Unchanged.v
theories/Proofs/UnchangedCases.v
theories/Proofs/UtilProofs.v
theories/Proofs/V1ApiProofs.v
theories/Proofs/V1Cases.v
theories/Proofs/V1Proofs.v
theories/Proofs/ValuesCases.v
theories/Proofs/ValuesFiles.v
theories/Proofs/ValuesProofs.v
theories/Proofs/ValuesSql.v
theories/Proofs/WidenBookProofs.v
theories/Proofs/WidenCases.v
theories/Proofs/WidenDiffCases.v
theories/Proofs/WidenDiffProofs.v
theories/Proofs/WidenKotlinCases.v
theories/Proofs/WidenKotlinProofs.v
theories/Proofs/WidenLogProofs.v
theories/Proofs/WidenProofs.v
theories/Proofs/WidenPythonProofs.v
theories/Proofs/WidenSourcesCases.v
theories/Proofs/WidenSourcesProofs.v
theories/Proofs/WireCases.v
theories/Proofs/WireProofs.v
theories/Proofs/WiringCases.v
theories/Proofs/WiringProofs.v
theories/Proofs/WordsCases.v
theories/Proofs/WordsProofs.v
theories/Proofs/XlsxDocCases.v
theories/Proofs/XlsxDocProofs.v
theories/Proofs/XlsxFacts.v
theories/Proofs/XlsxNull.v
theories/Proofs/XlsxProofs.v
theories/Proofs/XlsxRound.v
theories/Proofs/XlsxText.v
theories/Proofs/XlsxTripCases.v
theories/Proofs/XlsxTripFiles.v
theories/Proofs/XlsxTrips.v
theories/Proofs/XlsxWitnesses.v
theories/Props/P01_Util.v
theories/Props/P02_Octopus.v
theories/Props/P03_Common.v
theories/Props/P04_Diff.v
theories/Props/P05_Liquibase.v
theories/Props/P06_Mysql.v
theories/Props/P07_DiffWriters.v
theories/Props/P08_Xlsx.v
theories/Props/P09_Ojson.v
theories/Props/P10_Dbml.v
theories/Props/P11_Diagrams.v
theories/Props/P12_Protobuf.v
theories/Props/P13_Staruml.v
theories/Props/P14_Gorm.v
theories/Props/P15_Sqlalchemy.v
theories/Props/P16_Jpa.v
theories/Props/P17_Files.v
theories/Props/P18_Commands.v
theories/Props/P19_Options.v
theories/Props/P20_Groups.v
theories/Props/P21_Format.v
theories/Props/P22_Documents.v
theories/Props/P23_Stability.v
theories/Props/P24_Order.v
theories/Props/P25_Workbooks.v
theories/Props/P26_Names.v
theories/Props/P27_Growth.v
theories/Props/P28_Server.v
theories/Props/P29_EndToEnd.v
theories/Props/P30_JsonTexts.v
theories/Props/P31_Wiring.v
theories/Props/P32_Values.v
theories/Props/P33_Releases.v
theories/Props/P34_Trips.v
theories/Props/P35_Books.v
theories/Props/P36_Created.v
theories/Props/P37_Models.v
theories/Props/P38_Crashes.v
theories/Props/P39_Reverse.v
theories/Props/P40_Agree.v
theories/Props/P41_LogReleases.v
theories/Props/P42_Unchanged.v
theories/Props/P43_Trace.v
theories/Props/P44_Steps.v
theories/Props/P45_Safe.v
theories/Props/P46_Drift.v
theories/Props/P47_Forms.v
theories/Props/P48_Args.v
theories/Props/P49_Matters.v
theories/Props/P50_Compared.v
theories/Props/P51_Words.v
theories/Props/P52_Wire.v
theories/Props/P53_Nothing.v
theories/Props/P54_Widen.v
theories/Props/P55_Removed.v
theories/Props/P56_V1.v
theories/Props/P57_Multimap.v
theories/Props/P58_Pictures.v
theories/Props/P59_Nil.v
theories/Props/P60_Markdown.v
theories/Props/P61_Extras.v
theories/Props/P62_Merge.v
theories/Props/P63_Sources.v
theories/Props/P64_Classes.v
theories/Props/P65_Python.v
theories/Props/P66_Messages.v
theories/Props/P67_Log.v
theories/Props/P68_Book.v
theories/Props/P69_Added.v
theories/Props/P70_Removed.v
theories/Props/P71_Empty.v
theories/Props/P72_Renamed.v
theories/Props/P73_RenamedColumns.v
theories/Tests/DocTests.v
theories/Tests/GoTests.v
