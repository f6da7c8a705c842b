-Q theories Verif
theories/Base.v
theories/WordsModel.v
theories/WordsSpec.v
theories/WordsProof.v
theories/WordsProof2.v
theories/WordsProps.v
theories/ChunkSpec.v
theories/ChunkModel.v
theories/ChunkProof.v
theories/ChunkProof2.v
theories/ChunkProof3.v
theories/ChunkProof4.v
theories/ChunkProof5.v
theories/ChunkProof6.v
theories/ChunkProps.v
theories/FieldsSpec.v
theories/FieldsModel.v
theories/FieldsProof.v
theories/FieldsProof2.v
theories/FieldsProof3.v
theories/FieldsProof4.v
theories/FieldsProof5.v
theories/FieldsProof6.v
theories/FieldsProps.v
theories/ReaderSpec.v
theories/ReaderModel.v
theories/ReaderProof.v
theories/ReaderProof2.v
theories/ReaderProof3.v
theories/ReaderProof4.v
theories/ReaderProof5.v
theories/ReaderProof6.v
theories/TasksModel.v
theories/TasksProof.v
theories/ReaderProps.v
theories/NumSpec.v
theories/NumModel.v
theories/NumProof.v
theories/DateSpec.v
theories/DateModel.v
theories/DateProof.v
theories/DateProof2.v
theories/NumProps.v
theories/TypesSpec.v
theories/TypesModel.v
theories/TypesProof.v
theories/TypesProof2.v
theories/TypesProof3.v
theories/TypesProps.v
theories/BuffersSpec.v
theories/BuffersModel.v
theories/BuffersObs.v
theories/BuffersProof.v
theories/BuffersProof2.v
theories/BuffersProof3.v
theories/BuffersProps.v
theories/ChunkedSpec.v
theories/ChunkedModel.v
theories/ChunkedProof.v
theories/ChunkedProps.v
theories/CowSpec.v
theories/CowModel.v
theories/CowProof.v
theories/CowProps.v
theories/ErrorsSpec.v
theories/ErrorsModel.v
theories/ErrorsProof.v
theories/ErrorsProps.v
theories/VarintSpec.v
theories/VarintModel.v
theories/VarintProof.v
theories/VarintProps.v
theories/ThriftSpec.v
theories/ThriftModel.v
theories/ThriftProof.v
theories/ThriftProps.v
theories/MetaSpec.v
theories/MetaModel.v
theories/MetaProof.v
theories/MetaProps.v
theories/BuffersReach.v
theories/BuffersReachProof.v
theories/RleSpec.v
theories/RleModel.v
theories/RleProof.v
theories/RleProof2.v
theories/RleProof3.v
theories/RleProps.v
theories/PlainSpec.v
theories/PlainModel.v
theories/PlainProof.v
theories/PlainProof2.v
theories/PlainProps.v
theories/ParquetSpec.v
theories/ParquetModel.v
theories/ParquetObs.v
theories/ParquetProof.v
theories/ParquetProof2.v
theories/ParquetProof3.v
theories/ParquetProof4.v
theories/ParquetProof5.v
theories/ParquetProps.v
theories/DeltaSpec.v
theories/DeltaModel.v
theories/DeltaProof.v
theories/DeltaProof2.v
theories/DeltaProps.v
theories/QueueSpec.v
theories/QueueModel.v
theories/QueueProof.v
theories/PipelineModel.v
theories/PipelineProof.v
theories/QueueSched.v
theories/QueueProps.v
theories/ConvertModel.v
theories/ConvertObs.v
theories/ConvertProof.v
theories/ConvertProof2.v
theories/ConvertProof3.v
theories/ConvertProof4.v
theories/ConvertProof5.v
theories/ConvertProof6.v
theories/ConvertProps.v
theories/StatsSpec.v
theories/StatsModel.v
theories/StatsProof.v
theories/StatsProof2.v
theories/StatsProof3.v
theories/StatsProof4.v
theories/StatsProof5.v
theories/StatsProps.v
theories/DialectSpec.v
theories/DialectModel.v
theories/DialectObs.v
theories/DialectProof.v
theories/DialectProof2.v
theories/DialectProof3.v
theories/DialectProof4.v
theories/DialectProof5.v
theories/DialectProof6.v
theories/DialectProof7.v
theories/DialectProps.v
theories/MmapSpec.v
theories/MmapModel.v
theories/MmapProof.v
theories/MmapProps.v
theories/LifeSpec.v
theories/LifeModel.v
theories/LifeProof.v
theories/LifeProps.v
theories/CliSpec.v
theories/CliModel.v
theories/CliProof.v
theories/CliProof2.v
theories/CliProof3.v
theories/CliProof4.v
theories/CliProof5.v
theories/CliProps.v
theories/StrictSpec.v
theories/StrictModel.v
theories/StrictProof.v
theories/StrictProps.v
theories/AlignedSpec.v
theories/AlignedModel.v
theories/AlignedProof.v
theories/AlignedProps.v
theories/PySpec.v
theories/PyModel.v
theories/PyProof.v
theories/PyLifeSpec.v
theories/PyLifeModel.v
theories/PyLifeProof.v
theories/PyLifeProof2.v
theories/PyProps.v
theories/LayersSpec.v
theories/LayersModel.v
theories/LayersProof.v
theories/LayersProps.v
theories/HybridSpec.v
theories/HybridProof.v
theories/HybridProof2.v
theories/HybridProps.v
theories/SplitSpec.v
theories/SplitProof.v
theories/SplitProps.v
theories/FloatSpec.v
theories/FloatProof.v
theories/ScoreSpec.v
theories/ScoreProof.v
theories/ScoreProof2.v
theories/ScoreProof3.v
theories/ScoreProps.v
theories/CliProof6.v
theories/DeliverSpec.v
theories/DeliverProof.v
theories/DeliverProof2.v
theories/DeliverProps.v
theories/DeliverProof3.v
theories/DeliverProps2.v
theories/CompressSpec.v
theories/CompressModel.v
theories/CompressProof.v
theories/CompressProof2.v
theories/CompressProps.v
theories/PyConvSpec.v
theories/PyConvModel.v
theories/PyConvProof.v
theories/PyConvProps.v
theories/StampSpec.v
theories/StampProof.v
theories/StampProps.v
theories/ShowModel.v
theories/ShowSpec.v
theories/ShowProof.v
theories/ShowProof2.v
theories/ShowProps.v
theories/UnusedModel.v
theories/UnusedSpec.v
theories/UnusedProps.v
theories/DialectSpec2.v
theories/DialectProof8.v
theories/DialectProps2.v
theories/BuffersSpec2.v
theories/BuffersProof4.v
theories/BuffersProps2.v
theories/ChunkProof7.v
theories/ChunkProps2.v
theories/RoundSpec.v
theories/RoundProof.v
theories/RoundProof2.v
theories/RoundProof3.v
theories/RoundProof4.v
theories/RoundProof5.v
theories/SeenSpec.v
theories/RoundProof6.v
theories/RoundProps.v
theories/CompressProps2.v
theories/KeepSpec.v
theories/KeepProof.v
theories/KeepProps.v
theories/ReportSpec.v
theories/ReportModel.v
theories/ReportProof.v
theories/ReportProps.v
theories/MainSpec.v
theories/MainModel.v
theories/MainProof.v
theories/MainProps.v
theories/AppendSpec.v
theories/AppendProof.v
theories/AppendProps.v
theories/ProgramSpec.v
theories/ProgramModel.v
theories/ProgramProof.v
theories/ProgramProof2.v
theories/ProgramProps.v
theories/StatsSpec2.v
theories/StatsProof6.v
theories/StatsProps2.v
theories/RowsSpec.v
theories/RowsProof.v
theories/RowsProps.v
theories/ToolSpec.v
theories/ToolModel.v
theories/ToolProof.v
theories/ToolProps.v
theories/CrashSpec.v
theories/CrashModel.v
theories/CrashProof.v
theories/CrashProps.v
theories/FailModel.v
theories/FailProof.v
theories/FailProof2.v
theories/FailProof3.v
theories/FailProps.v
theories/SessionModel.v
theories/SessionSpec.v
theories/SessionProof.v
theories/SessionProof2.v
theories/SessionProof3.v
theories/SessionProps.v
theories/PyReadSpec.v
theories/PyReadModel.v
theories/PyReadProof.v
theories/PyReadProps.v
theories/VectorsSpec.v
theories/VectorsModel.v
theories/VectorsProof.v
theories/VectorsProof2.v
theories/VectorsProps.v
theories/StatsSpec3.v
theories/StatsProof7.v
theories/StatsProps3.v
theories/RawModel.v
theories/RawProof.v
theories/RawProof2.v
theories/RawProof3.v
theories/RawModel2.v
theories/RawProof4.v
theories/RawProof5.v
theories/RawModel3.v
theories/RawProof6.v
theories/RawProof7.v
theories/RawProps.v
theories/RawModel4.v
theories/RawModel5.v
theories/RawProof8.v
theories/RawProof9.v
theories/RawProof10.v
theories/RawProof11.v
theories/RawProof12.v
theories/RawProps2.v
theories/ProgressSpec.v
theories/ProgressModel.v
theories/ProgressProof.v
theories/ProgressProps.v
theories/StderrSpec.v
theories/StderrModel.v
theories/StderrProof.v
theories/StderrProps.v
theories/ReprintSpec.v
theories/ReprintProof.v
theories/ReprintProof2.v
theories/ReprintProof3.v
theories/ReprintProof4.v
theories/ReprintProof5.v
theories/ReprintProof6.v
theories/ReprintProof7.v
theories/ReprintProps.v
