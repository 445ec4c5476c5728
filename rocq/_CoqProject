-Q theories Verif
theories/PyStr.v
theories/PyCsv.v
theories/PyCsvProofs.v
theories/PyCsvRound.v
theories/Dsv.v
theories/DsvSpec.v
theories/DsvProofs.v
theories/DsvProofs2.v
theories/DsvProofs3.v
theories/DsvProofs4.v
theories/DsvProofs5.v
theories/DsvExamples.v
theories/Props_Dsv.v
theories/Json.v
theories/Dialects.v
theories/DialectSpec.v
theories/DialectProofs.v
theories/Names.v
theories/NamesSpec.v
theories/NamesProofs.v
theories/Props_Dialect.v
theories/Dec.v
theories/Numeric.v
theories/NumericSpec.v
theories/DecProofs.v
theories/DecProofs2.v
theories/NumericProofs.v
theories/GroupProofs.v
theories/PatternProofs.v
theories/PatternProofs2.v
theories/Basic.v
theories/BasicSpec.v
theories/BasicProofs.v
theories/Dates.v
theories/DateSpec.v
theories/DateProofs.v
theories/DateProofs2.v
theories/Datatype.v
theories/DatatypeSpec.v
theories/DatatypeProofs.v
theories/Props_Datatypes.v
theories/Props_Dates.v
theories/NatLang.v
theories/Column.v
theories/ColumnSpec.v
theories/ColumnProofs.v
theories/ColumnProofs2.v
theories/NatLangProofs.v
theories/Values.v
theories/ValuesSpec.v
theories/ValuesProofs.v
theories/Props_Column.v
theories/Schema.v
theories/SchemaSpec.v
theories/SchemaProofs.v
theories/Props_Schema.v
theories/Table.v
theories/TableSpec.v
theories/TableProofs.v
theories/TableProofs2.v
theories/TableProofs3.v
theories/TableProofs4.v
theories/TableProofs5.v
theories/TableProofs6.v
theories/Props_Table.v
theories/Group.v
theories/GroupSpec.v
theories/GroupProofs1.v
theories/GroupProofs2.v
theories/GroupProofs3.v
theories/GroupProofs4.v
theories/GroupProofs5.v
theories/Props_Group.v
theories/Meta.v
theories/MetaSpec.v
theories/MetaProofs.v
theories/MetaProofs2.v
theories/Props_Meta.v
theories/MetaProofs3.v
theories/Descr.v
theories/DescrSpec.v
theories/DescrProofs.v
theories/DescrProofs2.v
theories/DescrProofs3.v
theories/DescrProofs4.v
theories/DescrProofs5.v
theories/Props_Descr.v
theories/Sql.v
theories/Db.v
theories/DbSpec.v
theories/DbProofs.v
theories/DbProofs2.v
theories/Props_Db.v
theories/DbSql.v
theories/DbSqlSpec.v
theories/SqlProofs.v
theories/DbSqlProofs.v
theories/DbSqlProofs2.v
theories/Props_Sql.v
theories/Sqlite.v
theories/DbWrite.v
theories/SqliteProofs.v
theories/DbWriteSpec.v
theories/DbWriteProofs.v
theories/DbWriteProofs2.v
theories/Props_Rollback.v
theories/DbWriteProofs3.v
theories/DbWriteProofs4.v
theories/DbWriteProofs5.v
theories/DbWriteProofs6.v
theories/DbReadProofs.v
theories/DbReadProofs2.v
theories/DbReadProofs3.v
theories/DbReadProofs4.v
theories/DbReadProofs5.v
theories/DbReadProofs6.v
theories/Props_DbRound.v
theories/CheckSpec.v
theories/CheckProofs.v
theories/Props_Check.v
theories/Jsonld.v
theories/JsonldSpec.v
theories/JsonldProofs.v
theories/TripleProofs.v
theories/Props_Jsonld.v
theories/FrameProofs.v
theories/Props_Frame.v
theories/Frictionless.v
theories/FrictionlessSpec.v
theories/FrictionlessProofs.v
theories/FrictionlessProofs2.v
theories/FrictionlessProofs3.v
theories/Props_Frictionless.v
theories/Csv2json.v
theories/Csv2jsonSpec.v
theories/Csv2jsonProofs.v
theories/Csv2jsonProofs2.v
theories/Props_Csv2json.v
theories/Zip.v
theories/ZipSpec.v
theories/ZipProofs.v
theories/Props_Zip.v
theories/Locate.v
theories/LocateSpec.v
theories/LocateProofs.v
theories/Props_Locate.v
theories/Fmtval.v
theories/FmtvalSpec.v
theories/FmtvalProofs.v
theories/FmtvalProofs2.v
theories/Props_Fmtval.v
theories/Files.v
theories/FilesSpec.v
theories/FilesProofs.v
theories/FilesProofs2.v
theories/FilesProofs3.v
theories/Props_Files.v
theories/Expand.v
theories/Props_Expand.v
theories/Regex.v
theories/RegexSpec.v
theories/RegexProofs.v
theories/RegexProofs2.v
theories/RegexProofs3.v
theories/Props_Regex.v
theories/PatternProofs5.v
theories/JsonText.v
theories/JsonTextSpec.v
theories/JsonTextProofs.v
theories/JsonTextProofs2.v
theories/JsonTextProofs3.v
theories/Props_JsonText.v
theories/Markdown.v
theories/MarkdownSpec.v
theories/MarkdownProofs.v
theories/MarkdownProofs2.v
theories/MarkdownProofs3.v
theories/MarkdownProofs4.v
theories/MarkdownProofs5.v
theories/Props_Markdown.v
theories/RegexSyntax.v
theories/RegexProofs4.v
theories/QuietSpec.v
theories/QuietProofs.v
theories/QuietProofs2.v
theories/SchemaProofs2.v
theories/Props_Quiet.v
theories/LaxSpec.v
theories/LaxProofs.v
theories/LaxProofs2.v
theories/Props_Lax.v
theories/Load.v
theories/LoadSpec.v
theories/LoadProofs.v
theories/LoadProofs2.v
theories/LoadProofs3.v
theories/LoadProofs4.v
theories/LoadProofs5.v
theories/Props_Load.v
theories/Warn.v
theories/WarnSpec.v
theories/WarnProofs.v
theories/WarnProofs2.v
theories/WarnProofs3.v
theories/WarnProofs4.v
theories/WarnProofs5.v
theories/WarnProofs6.v
theories/Props_Warn.v
theories/Cli.v
theories/CliSpec.v
theories/CliProofs1.v
theories/CliProofs2.v
theories/CliProofs3.v
theories/CliProofs4.v
theories/CliProofs5.v
theories/Props_Cli.v
theories/ToSqlite.v
theories/ToSqliteSpec.v
theories/ToSqliteProofs1.v
theories/ToSqliteProofs2.v
theories/ToSqliteProofs3.v
theories/ToSqliteProofs4.v
theories/ToSqliteProofs5.v
theories/ToSqliteProofs6.v
theories/ToSqliteProofs7.v
theories/ToSqliteProofs8.v
theories/Props_ToSqlite.v
theories/Datasette.v
theories/DatasetteProofs.v
theories/Props_Datasette.v
theories/ForgetSpec.v
theories/DescrProofs6.v
theories/Describe.v
theories/DescribeSpec.v
theories/DescribeProofs.v
theories/DescribeProofs2.v
theories/Props_Describe.v
theories/FromParts.v
theories/AddKey.v
theories/AddKeySpec.v
theories/AddKeyProofs.v
theories/AddKeyProofs2.v
theories/AddKeyProofs3.v
theories/Props_AddKey.v
theories/SettleSpec.v
theories/SettleProofs.v
theories/SettleProofs2.v
theories/SettleProofs3.v
theories/SettleProofs4.v
theories/SettleProofs5.v
theories/SettleProofs6.v
theories/SettleProofs7.v
theories/SettleProofs8.v
theories/SettleProofs9.v
theories/SettleProofs10.v
theories/Props_Settle.v
theories/ToJson.v
theories/ToJsonSpec.v
theories/ToJsonProofs1.v
theories/ToJsonProofs2.v
theories/ToJsonProofs3.v
theories/Props_ToJson.v
theories/ToMd.v
theories/ToMdSpec.v
theories/ToMdProofs1.v
theories/ToMdProofs2.v
theories/ToMdProofs3.v
theories/Props_ToMd.v
theories/StoredSpec.v
theories/StoredProofs1.v
theories/StoredProofs2.v
theories/StoredProofs3.v
theories/Props_Stored.v
